(** Proofs about the interpolation refinement. *)
From Coq Require Import ZArith QArith Qabs List Bool Lia Lqa Arith.
From Verif Require Import Base.PyList Base.Arr Model.CommonModel Model.DisparityModel Model.OpticalFlowModel Model.InterpolationModel Spec.InterpolationSpec
  Proofs.ChunkProofs Proofs.WtaProofs Proofs.WtaTheorems Proofs.FlowProofs Proofs.FlowWindows Proofs.FlowTheorems Proofs.FlowRange.
Import ListNotations.
Open Scope nat_scope.

(** *** The costs of a pixel *)
Lemma cost_matrix_surface (data : arr4 cost) r c : r < a4_n0 data -> c < a4_n1 data -> surface_of data r c (cost_matrix data (r * a4_n1 data + c)).
Proof.
  intros Hr Hc. unfold cost_matrix, matrix_of, roll_3_1, roll_3_0. cbn [a4_n0 a4_n1 a4_n2 a4_n3 a4_get].
  assert (E1 : (r * a4_n1 data + c) / a4_n1 data = r) by (rewrite Nat.div_add_l by lia; rewrite Nat.div_small by lia; lia).
  assert (E2 : (r * a4_n1 data + c) mod a4_n1 data = c) by (rewrite Nat.add_comm, Nat.mod_add by lia; apply Nat.mod_small; lia).
  rewrite E1, E2. split.
  - split; [rewrite map_length, seq_length; reflexivity|]. apply Forall_forall. intros x Hx. apply in_map_iff in Hx. destruct Hx as (k & <- & _). rewrite map_length, seq_length. reflexivity.
  - intros i j Hi Hj. unfold nth2. rewrite nth_error_map, (seq_nth_error _ 0 j Hj). cbn [option_map]. rewrite nth_error_map, (seq_nth_error _ 0 i Hi). reflexivity.
Qed.

Lemma surface_unique data r c S S' : surface_of data r c S -> surface_of data r c S' -> S = S'.
Proof.
  intros [[L F] P] [[L' F'] P']. apply list_eq_nth_error. intros j. destruct (lt_dec j (a4_n3 data)) as [Hj|Hj].
  - destruct (nth_error_some S j) as [l E]; [lia|]. destruct (nth_error_some S' j) as [l' E']; [lia|]. rewrite E, E'. f_equal.
    rewrite Forall_forall in F, F'. assert (A := F _ (nth_error_In _ _ E)). assert (A' := F' _ (nth_error_In _ _ E')).
    apply list_eq_nth_error. intros i. destruct (lt_dec i (a4_n2 data)) as [Hi|Hi].
    + specialize (P i j Hi Hj). specialize (P' i j Hi Hj). unfold nth2 in P, P'. rewrite E in P. rewrite E' in P'. congruence.
    + rewrite !(proj2 (nth_error_None _ _)); [reflexivity|lia|lia].
  - rewrite !(proj2 (nth_error_None _ _)); [reflexivity|lia|lia].
Qed.

(** *** Preparation *)
Definition prep (t : measure) (x : cost) : cost := match (match t with MeasureMax => c_neg x | MeasureMin => x end) with CInf true => CNan | y => y end.
Lemma prepare_prep t m : prepare t m = map (map (prep t)) m.
Proof. reflexivity. Qed.
Lemma prep_usable t x : usable t x -> prep t x = oriented t x.
Proof. destruct t, x as [|[]|]; unfold usable, prep, oriented; simpl; intros [A B]; congruence. Qed.
Lemma prep_nan t x : c_isnan (prep t x) = true <-> ~ usable t x.
Proof. destruct t, x as [|[]|]; unfold usable, prep; simpl; split; intros H; try reflexivity; try discriminate; try (intros [A B]; congruence); exfalso; apply H; split; congruence. Qed.
Lemma prep_not_nan t x : c_isnan (prep t x) = false <-> usable t x.
Proof. destruct t, x as [|[]|]; unfold usable, prep; simpl; split; intros H; try reflexivity; try discriminate; try (split; congruence); destruct H; congruence. Qed.
Lemma prep_infinite t x b : prep t x = CInf b -> b = false.
Proof. destruct t, x as [|[]|]; unfold prep; simpl; congruence. Qed.

Lemma nth2_map {X Y} (f : X -> Y) m j i : nth2 (map (map f) m) j i = option_map f (nth2 m j i).
Proof. unfold nth2. rewrite nth_error_map. destruct (nth_error m j); [apply nth_error_map|reflexivity]. Qed.
Lemma in_nth2 {X} (m : list (list X)) line x : In line m -> In x line -> exists j i, nth2 m j i = Some x.
Proof. intros H1 H2. apply In_nth_error in H1. apply In_nth_error in H2. destruct H1 as [j E], H2 as [i E']. exists j, i. unfold nth2. rewrite E. exact E'. Qed.
Lemma nth2_in {X} (m : list (list X)) j i x : nth2 m j i = Some x -> exists line, nth_error m j = Some line /\ nth_error line i = Some x.
Proof. unfold nth2. destruct (nth_error m j) as [line|]; [|discriminate]. intros H. exists line. auto. Qed.

Lemma all_nan_spec t m : forallb (forallb c_isnan) (prepare t m) = true <-> nothing_usable t m.
Proof.
  rewrite prepare_prep, forallb_forall. split.
  - intros H j i x Hx. apply prep_nan. apply nth2_in in Hx. destruct Hx as (line & E1 & E2).
    specialize (H (map (prep t) line)). rewrite forallb_forall in H. apply H; apply in_map; eauto using nth_error_In.
  - intros H line Hl. apply in_map_iff in Hl. destruct Hl as (l & <- & Hl). apply forallb_forall. intros y Hy. apply in_map_iff in Hy. destruct Hy as (x & <- & Hx).
    apply prep_nan. destruct (in_nth2 _ _ _ Hl Hx) as (j & i & E). eapply H. exact E.
Qed.

(** *** np.interp *)
Lemma np_interp_app pts : forall prev pts' x, Forall (fun p : nat * cost => fst p <= x) pts ->
  np_interp prev (pts ++ pts') x = np_interp (last (map Some pts) prev) pts' x.
Proof.
  induction pts as [|p pts IH]; intros prev pts' x F; [reflexivity|]. inversion F as [|? ? Hp F']; subst. cbn [app np_interp]. apply Nat.leb_le in Hp. rewrite Hp. rewrite IH by exact F'. f_equal.
  cbn [map]. destruct pts as [|q pts]; [reflexivity|]. cbn [map last]. clear. revert q. induction pts as [|a l IHl]; intros q; [reflexivity|]. cbn [map last]. apply (IHl a).
Qed.
Lemma np_interp_beyond pts : forall prev x, Forall (fun p : nat * cost => x < fst p) pts ->
  np_interp prev pts x = match prev, pts with
                         | None, [] => CNan | None, p :: _ => snd p
                         | Some q, [] => snd q
                         | Some q, p :: _ => if fst q =? x then snd q else between q p x end.
Proof.
  intros prev x F. destruct pts as [|p pts]; [reflexivity|]. inversion F as [|? ? Hp F']; subst. cbn [np_interp]. apply Nat.leb_gt in Hp. rewrite Hp. reflexivity.
Qed.

(** The points of some lines. *)
Definition points_from (k : nat) (m : list (list cost)) : list (nat * cost) :=
  flat_map (fun p : nat * list cost => map (fun x => (fst p, x)) (List.filter (fun x => negb (c_isnan x)) (snd p))) (combine (seq k (length m)) m).
Lemma points_from_cons k line m : points_from k (line :: m) = map (fun x => (k, x)) (List.filter (fun x => negb (c_isnan x)) line) ++ points_from (S k) m.
Proof. reflexivity. Qed.
Lemma points_from_app k m m' : points_from k (m ++ m') = points_from k m ++ points_from (k + length m) m'.
Proof.
  revert k. induction m as [|line m IH]; intros k; [simpl; rewrite Nat.add_0_r; reflexivity|]. rewrite <- app_comm_cons, !points_from_cons, IH, app_assoc. simpl length. replace (S k + length m) with (k + S (length m)) by lia. reflexivity.
Qed.
Lemma points_from_range k m : Forall (fun p : nat * cost => k <= fst p < k + length m) (points_from k m).
Proof.
  revert k. induction m as [|line m IH]; intros k; [constructor|]. rewrite points_from_cons. apply Forall_app. split.
  - apply Forall_forall. intros p Hp. apply in_map_iff in Hp. destruct Hp as (x & <- & _). simpl. lia.
  - eapply Forall_impl; [|apply IH]. intros p Hp. simpl in *. lia.
Qed.

(** First and last element that satisfies a condition. *)
Lemma filter_first {X} (f : X -> bool) l x r : List.filter f l = x :: r -> exists i, nth_error l i = Some x /\ f x = true /\ forall i' x', i' < i -> nth_error l i' = Some x' -> f x' = false.
Proof.
  induction l as [|a l IH]; [discriminate|]. simpl. destruct (f a) eqn:Ea.
  - intros H. injection H as <- <-. exists 0. repeat split; auto. intros i' x' Hi. lia.
  - intros H. destruct (IH H) as (i & E1 & E2 & E3). exists (S i). split; [exact E1|]. split; [exact E2|]. intros [|i'] x' Hi Hx; [simpl in Hx; congruence|]. apply (E3 i' x'); [lia|exact Hx].
Qed.
Lemma filter_none {X} (f : X -> bool) l : List.filter f l = [] -> forall i x, nth_error l i = Some x -> f x = false.
Proof. induction l as [|a l IH]; intros H i x Hx; [destruct i; discriminate|]. simpl in H. destruct (f a) eqn:Ea; [discriminate|]. destruct i; simpl in Hx; [congruence|eauto]. Qed.
Lemma filter_last {X} (f : X -> bool) l : forall x r, List.filter f l = r ++ [x] -> exists i, nth_error l i = Some x /\ f x = true /\ forall i' x', i < i' -> nth_error l i' = Some x' -> f x' = false.
Proof.
  induction l as [|a l IH]; intros x r H; [destruct r; discriminate|]. simpl in H. destruct (f a) eqn:Ea.
  - destruct r as [|b r].
    + injection H as -> H. exists 0. repeat split; auto. intros [|i'] x' Hi Hx; [lia|]. simpl in Hx. eapply filter_none; eauto.
    + injection H as -> H. destruct (IH x r H) as (i & E1 & E2 & E3). exists (S i). split; [exact E1|]. split; [exact E2|]. intros [|i'] x' Hi Hx; [lia|]. apply (E3 i' x'); [lia|exact Hx].
  - destruct (IH x r H) as (i & E1 & E2 & E3). exists (S i). split; [exact E1|]. split; [exact E2|]. intros [|i'] x' Hi Hx; [lia|]. apply (E3 i' x'); [lia|exact Hx].
Qed.

Section Fill.
  Variables (t : measure) (S0 : list (list cost)).
  Let m := prepare t S0.
  Let known := fun x : cost => negb (c_isnan x).

  Lemma m_nth j line : nth_error S0 j = Some line -> nth_error m j = Some (map (prep t) line).
  Proof. intros H. unfold m. rewrite prepare_prep, nth_error_map, H. reflexivity. Qed.
  Lemma m_nth_inv j l : nth_error m j = Some l -> exists line, nth_error S0 j = Some line /\ l = map (prep t) line.
  Proof. unfold m. rewrite prepare_prep, nth_error_map. destruct (nth_error S0 j) as [line|]; [|discriminate]. intros H. injection H as <-. eauto. Qed.
  Lemma m_length : length m = length S0. Proof. unfold m. rewrite prepare_prep. apply map_length. Qed.

  Lemma line_none j l : nth_error m j = Some l -> List.filter known l = [] -> line_without t S0 j.
  Proof.
    intros H F i x Hx. destruct (m_nth_inv j l H) as (line & E & ->). unfold nth2 in Hx. rewrite E in Hx. apply prep_nan.
    assert (K := filter_none known _ F i (prep t x)). rewrite nth_error_map, Hx in K. specialize (K eq_refl). unfold known in K. destruct (c_isnan (prep t x)); [reflexivity|discriminate].
  Qed.
  Lemma line_first j l y r : nth_error m j = Some l -> List.filter known l = y :: r -> exists x, first_of_line t S0 j x /\ y = oriented t x.
  Proof.
    intros H F. destruct (m_nth_inv j l H) as (line & E & ->). destruct (filter_first known _ _ _ F) as (i & E1 & E2 & E3).
    rewrite nth_error_map in E1. destruct (nth_error line i) as [x|] eqn:Ex; [|discriminate]. injection E1 as <-.
    unfold known in E2. apply negb_true_iff, prep_not_nan in E2. exists x. split; [|apply prep_usable; exact E2]. exists i. unfold nth2. rewrite E. split; [exact Ex|]. split; [exact E2|].
    intros i' x' Hi Hx. apply prep_nan. specialize (E3 i' (prep t x') Hi). rewrite nth_error_map, Hx in E3. specialize (E3 eq_refl). unfold known in E3. apply negb_false_iff in E3. exact E3.
  Qed.
  Lemma line_last j l y r : nth_error m j = Some l -> List.filter known l = r ++ [y] -> exists x, last_of_line t S0 j x /\ y = oriented t x.
  Proof.
    intros H F. destruct (m_nth_inv j l H) as (line & E & ->). destruct (filter_last known _ _ _ F) as (i & E1 & E2 & E3).
    rewrite nth_error_map in E1. destruct (nth_error line i) as [x|] eqn:Ex; [|discriminate]. injection E1 as <-.
    unfold known in E2. apply negb_true_iff, prep_not_nan in E2. exists x. split; [|apply prep_usable; exact E2]. exists i. unfold nth2. rewrite E. split; [exact Ex|]. split; [exact E2|].
    intros i' x' Hi Hx. apply prep_nan. specialize (E3 i' (prep t x') Hi). rewrite nth_error_map, Hx in E3. specialize (E3 eq_refl). unfold known in E3. apply negb_false_iff in E3. exact E3.
  Qed.

  (** The last point of the lines k .. k + length s - 1. *)
  Lemma points_last : forall s k, (forall i l, nth_error s i = Some l -> nth_error m (k + i) = Some l) ->
    (points_from k s = [] /\ forall i, k <= i < k + length s -> line_without t S0 i) \/
    (exists r a x, points_from k s = r ++ [(a, oriented t x)] /\ k <= a < k + length s /\ last_of_line t S0 a x /\ forall i, a < i < k + length s -> line_without t S0 i).
  Proof.
    induction s as [|line s IH] using rev_ind; intros k H; [left; split; [reflexivity|simpl; intros; lia]|].
    rewrite points_from_app. assert (Hline : nth_error m (k + length s) = Some line). { apply H. rewrite nth_error_app2 by lia. rewrite Nat.sub_diag. reflexivity. }
    destruct (IH k) as [[E N]|(r & a & x & E & Ha & Hx & N)].
    { intros i l Hl. apply H. rewrite nth_error_app1; [exact Hl|]. apply nth_error_Some. congruence. }
    all: rewrite E, app_length, points_from_cons; cbn [points_from length seq combine flat_map]; rewrite app_nil_r.
    - assert (D : List.filter known line = [] \/ List.filter known line <> []) by (destruct (List.filter known line); [left; reflexivity|right; discriminate]). destruct D as [Z|Z].
      + left. fold known. rewrite Z. split; [reflexivity|]. intros i Hi. destruct (Nat.eq_dec i (k + length s)) as [->|]; [eapply line_none; eauto|apply N; lia].
      + right. destruct (exists_last Z) as (r & y & Er). destruct (line_last _ _ _ _ Hline Er) as (x & Hx & ->). fold known. rewrite Er, map_app. exists (map (fun x => (k + length s, x)) r), (k + length s), x.
        split; [reflexivity|]. split; [lia|]. split; [exact Hx|]. intros; lia.
    - right. assert (D : List.filter known line = [] \/ List.filter known line <> []) by (destruct (List.filter known line); [left; reflexivity|right; discriminate]). destruct D as [Z|Z].
      + fold known. rewrite Z. cbn [map]. rewrite app_nil_r. exists r, a, x. split; [reflexivity|]. split; [lia|]. split; [exact Hx|]. intros i Hi.
        destruct (Nat.eq_dec i (k + length s)) as [->|]; [eapply line_none; eauto|apply N; lia].
      + destruct (exists_last Z) as (r' & y & Er). destruct (line_last _ _ _ _ Hline Er) as (x' & Hx' & ->). fold known. rewrite Er, map_app, app_assoc.
        eexists. exists (k + length s), x'. split; [reflexivity|]. split; [lia|]. split; [exact Hx'|]. intros; lia.
  Qed.
  Lemma points_first : forall s k, (forall i l, nth_error s i = Some l -> nth_error m (k + i) = Some l) ->
    (points_from k s = [] /\ forall i, k <= i < k + length s -> line_without t S0 i) \/
    (exists r b x, points_from k s = (b, oriented t x) :: r /\ k <= b < k + length s /\ first_of_line t S0 b x /\ forall i, k <= i < b -> line_without t S0 i).
  Proof.
    induction s as [|line s IH]; intros k H; [left; split; [reflexivity|simpl; intros; lia]|]. rewrite points_from_cons. fold known.
    assert (Hline : nth_error m k = Some line). { rewrite <- (Nat.add_0_r k). apply H. reflexivity. }
    destruct (List.filter known line) as [|y r] eqn:Er.
    - cbn [map app length]. destruct (IH (S k)) as [[E N]|(r & b & x & E & Hb & Hx & N)].
      { intros i l Hl. replace (S k + i) with (k + S i) by lia. apply H. exact Hl. }
      + left. split; [exact E|]. intros i Hi. destruct (Nat.eq_dec i k) as [->|]; [eapply line_none; eauto|apply N; lia].
      + right. exists r, b, x. split; [exact E|]. split; [lia|]. split; [exact Hx|]. intros i Hi. destruct (Nat.eq_dec i k) as [->|]; [eapply line_none; eauto|apply N; lia].
    - right. destruct (line_first _ _ _ _ Hline Er) as (x & Hx & ->). cbn [map app]. eexists. exists k, x. split; [reflexivity|]. split; [simpl; lia|]. split; [exact Hx|]. intros; lia.
  Qed.

  Lemma last_some {X} (r : list X) x d : last (map Some (r ++ [x])) d = Some x.
  Proof. rewrite map_app. apply last_last. Qed.

  Lemma np_interp_replacement j : j < length m -> ~ nothing_usable t S0 -> replacement t S0 j (np_interp None (known_points m) j).
  Proof.
    intros Hj U. change (known_points m) with (points_from 0 m).
    assert (Ln : forall k, length m <= k -> line_without t S0 k).
    { intros k Hk i x Hx. unfold nth2 in Hx. rewrite (proj2 (nth_error_None _ _)) in Hx; [discriminate|]. rewrite <- m_length. exact Hk. }
    assert (L1 : length (firstn (S j) m) = S j) by (rewrite firstn_length; lia).
    assert (L2 : length (skipn (S j) m) = length m - S j) by apply skipn_length.
    rewrite <- (firstn_skipn (S j) m) at 1. rewrite points_from_app, L1. cbn [Nat.add].
    assert (FA := points_from_range 0 (firstn (S j) m)). assert (FB := points_from_range (S j) (skipn (S j) m)). rewrite L1 in FA.
    rewrite np_interp_app; [|eapply Forall_impl; [|exact FA]; intros p Hp; simpl in *; lia].
    rewrite np_interp_beyond; [|eapply Forall_impl; [|exact FB]; intros p Hp; simpl in *; lia]. clear FA FB.
    destruct (points_last (firstn (S j) m) 0) as [[EA NA]|(rA & a & xa & EA & Ha & Hxa & NA)].
    { intros i l Hl. simpl. rewrite <- Hl. symmetry. rewrite <- (firstn_skipn (S j) m) at 2. rewrite nth_error_app1; [reflexivity|]. apply nth_error_Some. congruence. }
    all: destruct (points_first (skipn (S j) m) (S j)) as [[EB NB]|(rB & b & xb & EB & Hb & Hxb & NB)];
      [intros i l Hl; rewrite <- Hl; rewrite <- (firstn_skipn (S j) m) at 1; rewrite nth_error_app2 by lia; f_equal; lia| |].
    all: rewrite EA, EB; rewrite L1 in NA; rewrite L2 in *.
    - exfalso. apply U. intros k i x Hx. assert (D : k < S j \/ S j <= k < length m \/ length m <= k) by lia.
      destruct D as [D|[D|D]]; [eapply NA; [|exact Hx]; lia|eapply NB; [|exact Hx]; lia|eapply Ln; eauto].
    - cbn [map last snd]. right. right. left. exists b, xb. split; [lia|]. split; [|auto]. intros k Hk. destruct (le_lt_dec (S j) k); [apply NB; lia|apply NA; lia].
    - rewrite last_some. cbn [snd]. destruct (Nat.eq_dec a j) as [->|Naj]; [left; exists xa; auto|]. right. right. right. exists a, xa. split; [lia|]. split; [|auto].
      intros k Hk. destruct (le_lt_dec (length m) k); [apply Ln; lia|]. destruct (le_lt_dec (S j) k); [apply NB; lia|apply NA; lia].
    - rewrite last_some. cbn [fst]. destruct (a =? j) eqn:Eaj; [apply Nat.eqb_eq in Eaj; subst a; left; exists xa; auto|]. apply Nat.eqb_neq in Eaj. right. left. split; [apply NA; lia|].
      exists a, xa, b, xb. split; [lia|]. split; [exact Hxa|]. split; [exact Hxb|]. split; [intros k Hk; destruct (le_lt_dec (S j) k); [apply NB; lia|apply NA; lia]|].
      unfold between. cbn [fst snd]. destruct (oriented t xa) as [| |p] eqn:Ea; [right; split; [left; intros; discriminate|reflexivity]|right; split; [left; intros; discriminate|reflexivity]|].
      destruct (oriented t xb) as [| |q] eqn:Eb; [right; split; [right; intros; discriminate|reflexivity]|right; split; [right; intros; discriminate|reflexivity]|].
      left. exists p, q. split; [reflexivity|]. split; [reflexivity|]. eexists. split; [reflexivity|].
      rewrite !Nat2Z.inj_sub by lia. unfold Z.sub. rewrite !inject_Z_plus, !inject_Z_opp.
      assert (Hne : ~ (inject_Z (Z.of_nat b) + - inject_Z (Z.of_nat a) == 0)%Q).
      { intros H. assert (inject_Z (Z.of_nat b) == inject_Z (Z.of_nat a))%Q as H' by lra. unfold Qeq in H'. simpl in H'. lia. }
      field. exact Hne.
  Qed.

  Lemma completed_full : ~ nothing_usable t S0 -> completed t S0 (if existsb (existsb c_isnan) m then fill_missing m else m).
  Proof.
    intros U. set (F := if existsb _ _ then _ else _).
    assert (P : forall j line, nth_error S0 j = Some line -> exists line', nth_error F j = Some line' /\ length line' = length line /\
      forall i x, nth_error line i = Some x -> exists y, nth_error line' i = Some y /\ (usable t x -> y = oriented t x) /\ (~ usable t x -> replacement t S0 j y)).
    { intros j line Hl. assert (Hm := m_nth j line Hl). assert (Hj : j < length m) by (apply nth_error_Some; congruence). unfold F. destruct (existsb (existsb c_isnan) m) eqn:Ex.
      - eexists. split; [unfold fill_missing; rewrite nth_error_map, (proj2 (combine_nth _ _ _ _ _) (conj (seq_nth_error _ 0 j Hj) Hm)); reflexivity|]. cbn [snd fst Nat.add].
        split; [rewrite !map_length; reflexivity|]. intros i x Hx. rewrite !nth_error_map, Hx. eexists. split; [reflexivity|]. destruct (c_isnan (prep t x)) eqn:En.
        + split; [intros Ux; apply prep_not_nan in Ux; congruence|]. intros _. apply np_interp_replacement; assumption.
        + apply prep_not_nan in En. split; [intros _; apply prep_usable; exact En|contradiction].
      - eexists. split; [exact Hm|]. split; [apply map_length|]. intros i x Hx. rewrite nth_error_map, Hx. eexists. split; [reflexivity|].
        assert (En : c_isnan (prep t x) = false).
        { destruct (c_isnan (prep t x)) eqn:En; [|reflexivity]. exfalso. enough (existsb (existsb c_isnan) m = true) by congruence. apply existsb_exists. exists (map (prep t) line).
          split; [eapply nth_error_In; eauto|]. apply existsb_exists. exists (prep t x). split; [apply in_map; eapply nth_error_In; eauto|exact En]. }
        apply prep_not_nan in En. split; [intros _; apply prep_usable; exact En|contradiction]. }
    split; [|split].
    - unfold F. destruct (existsb _ m); [|apply m_length]. unfold fill_missing. rewrite map_length, combine_length, seq_length, Nat.min_id. apply m_length.
    - intros j line line' H1 H2. destruct (P j line H1) as (l & E & L & _). congruence.
    - intros j i x Hx. apply nth2_in in Hx. destruct Hx as (line & E1 & E2). destruct (P j line E1) as (l & E & _ & Q). destruct (Q i x E2) as (y & Ey & R1 & R2). exists y. unfold nth2. rewrite E. auto.
  Qed.
End Fill.

(** *** The whole map *)
Lemma rect_concat {X} (M : list (list X)) n m : rect n m M -> length (concat M) = n * m.
Proof.
  intros [L F]. revert n L. induction M as [|l M IH]; intros n L; [simpl in L; subst; reflexivity|]. inversion F; subst. simpl. rewrite app_length. rewrite (IH H2 (length M) eq_refl). reflexivity.
Qed.
Lemma concat_nth2 {X} (M : list (list X)) n m r c : rect n m M -> r < n -> c < m -> nth_error (concat M) (r * m + c) = nth2 M r c.
Proof.
  intros [L F]. revert n r L. induction M as [|l M IH]; intros n r L Hr Hc; [simpl in L; lia|]. inversion F as [|? ? Hl F']; subst. unfold nth2. destruct r as [|r].
  - simpl. rewrite nth_error_app1 by lia. reflexivity.
  - simpl. rewrite nth_error_app2 by lia. replace (length l + r * length l + c - length l) with (r * length l + c) by lia. apply (IH F' (length M)); [reflexivity|simpl in Hr; lia|exact Hc].
Qed.

Section Whole.
  Variable interp : list Q -> list Q -> list (list cost) -> num -> num -> cost.
  Variable minimise : (num -> num -> cost) -> num * num -> (Q * Q) * (Q * Q) -> num * num.

  Lemma refinement_spec t disp_col disp_row data col_map row_map n m : a4_n0 data = n -> a4_n1 data = m -> 0 < n -> 0 < m -> rect n m col_map -> rect n m row_map ->
    disp_col <> [] -> disp_row <> [] ->
    exists dc dr sc, interpolation_refinement interp minimise t disp_col disp_row data col_map row_map = Some (dc, dr, sc) /\ rect n m dc /\ rect n m dr /\ rect n m sc /\
      forall r c, r < n -> c < m -> exists x y a b s, nth2 col_map r c = Some x /\ nth2 row_map r c = Some y /\
        compute_cost_matrix interp minimise t disp_col disp_row x y (cost_matrix data (r * m + c)) = Some (a, b, s) /\
        nth2 dc r c = Some a /\ nth2 dr r c = Some b /\ nth2 sc r c = Some s.
  Proof.
    intros En Em Hn Hm Rc Rr Nc Nr. unfold interpolation_refinement. set (f := fun i : nat => match nth_error (concat col_map) i with Some _ => _ | None => _ end).
    assert (Lc := rect_concat _ _ _ Rc). assert (Lr := rect_concat _ _ _ Rr).
    assert (Tot : forall x y M, compute_cost_matrix interp minimise t disp_col disp_row x y M <> None).
    { intros x y M. unfold compute_cost_matrix. destruct disp_col; [congruence|]. destruct disp_row; [congruence|]. destruct (forallb _ _); [discriminate|]. destruct (minimise _ _ _). discriminate. }
    rewrite En, Em. destruct (map_opt_some f (seq 0 (n * m))) as [ys Ey].
    { intros i Hi. apply in_seq in Hi. unfold f. destruct (nth_error_some (concat col_map) i) as [x ->]; [lia|]. destruct (nth_error_some (concat row_map) i) as [y ->]; [lia|]. apply Tot. }
    rewrite Ey. destruct (map_opt_nth _ _ _ Ey) as [L P]. rewrite seq_length in L.
    destruct ys as [|y0 ys]; [simpl in L; nia|]. set (Y := y0 :: ys) in *.
    assert (Ln : length col_map = n) by (destruct Rc; assumption). rewrite Ln.
    assert (Lm : match col_map with [] => 0 | line :: _ => length line end = m). { destruct col_map as [|l0 l]; [simpl in Ln; lia|]. destruct Rc as [_ F]. inversion F; assumption. } rewrite Lm.
    unfold reshape2. rewrite !map_length, L, Nat.eqb_refl. cbn [bind].
    eexists. eexists. eexists. split; [reflexivity|]. split; [apply chunks_rect; rewrite map_length; exact L|]. split; [apply chunks_rect; rewrite map_length; exact L|].
    split; [apply chunks_rect; rewrite map_length; exact L|].
    intros r c Hr Hc. assert (Hi : r * m + c < n * m) by nia. destruct (P (r * m + c) (r * m + c)) as ([[a b] s] & E1 & E2); [rewrite (seq_nth_error _ 0) by exact Hi; reflexivity|].
    unfold f in E1. rewrite (concat_nth2 _ n m) in E1 by assumption. rewrite (concat_nth2 _ n m) in E1 by assumption.
    destruct (nth2 col_map r c) as [x|]; [|discriminate]. destruct (nth2 row_map r c) as [y|]; [|discriminate].
    exists x, y, a, b, s. split; [reflexivity|]. split; [reflexivity|]. split; [exact E1|].
    rewrite !chunks_nth by (try assumption; rewrite map_length; exact L). rewrite !nth_error_map. rewrite E2. auto.
  Qed.

  Lemma compute_cost_matrix_spec t disp_col disp_row x y S c0 c1 r0 r1 a b s : first_last disp_col c0 c1 -> first_last disp_row r0 r1 ->
    compute_cost_matrix interp minimise t disp_col disp_row x y S = Some (a, b, s) ->
    (nothing_usable t S -> a = None /\ b = None /\ s = CNan) /\
    (~ nothing_usable t S -> exists F, completed t S F /\ (a, b) = minimise (interp disp_col disp_row F) (x, y) ((c0, c1), (r0, r1)) /\ s = c_abs (interp disp_col disp_row F a b)).
  Proof.
    intros [A1 A2] [B1 B2] H. unfold compute_cost_matrix in H. destruct disp_col as [|c0' lc]; [discriminate|]. destruct disp_row as [|r0' lr]; [discriminate|].
    injection A1 as ->. injection B1 as ->.
    assert (Hl : forall (l : list Q) z z1, nth_error (z :: l) (length (z :: l) - 1) = Some z1 -> last (z :: l) z = z1).
    { clear. intros l z z1. destruct (exists_last (l:=z :: l)) as (l' & e & E); [discriminate|]. rewrite E, app_length. simpl. rewrite last_last. replace (length l' + 1 - 1) with (length l') by lia.
      rewrite nth_error_app2 by lia. rewrite Nat.sub_diag. simpl. congruence. }
    rewrite (Hl lc c0 c1 A2), (Hl lr r0 r1 B2) in H. destruct (forallb (forallb c_isnan) (prepare t S)) eqn:En.
    - injection H as <- <- <-. apply all_nan_spec in En. split; [auto|contradiction].
    - assert (U : ~ nothing_usable t S) by (intros U; apply all_nan_spec in U; congruence). split; [contradiction|]. intros _. eexists. split; [apply completed_full; exact U|].
      destruct (minimise _ _ _) as [a' b'] eqn:E. injection H as <- <- <-. split; reflexivity.
  Qed.

  Lemma usable_dec t x : {usable t x} + {~ usable t x}.
  Proof. destruct (c_isnan (prep t x)) eqn:E; [right; apply prep_nan; exact E|left; apply prep_not_nan; exact E]. Qed.
  Lemma nothing_dec t S : {nothing_usable t S} + {~ nothing_usable t S}.
  Proof. destruct (forallb (forallb c_isnan) (prepare t S)) eqn:E; [left; apply all_nan_spec; exact E|right; intros H; apply all_nan_spec in H; congruence]. Qed.
End Whole.

Lemma replacement_bounds t S j y lo hi : replacement t S j y ->
  (forall j i x, nth2 S j i = Some x -> usable t x -> exists q, oriented t x = CFin q /\ (lo <= q)%Q /\ (q <= hi)%Q) -> exists q, y = CFin q /\ (lo <= q)%Q /\ (q <= hi)%Q.
Proof.
  intros R B.
  assert (BL : forall k x, last_of_line t S k x -> exists q, oriented t x = CFin q /\ (lo <= q)%Q /\ (q <= hi)%Q) by (intros k x (i & E & U & _); eauto).
  assert (BF : forall k x, first_of_line t S k x -> exists q, oriented t x = CFin q /\ (lo <= q)%Q /\ (q <= hi)%Q) by (intros k x (i & E & U & _); eauto).
  destruct R as [(x & H & ->)|[(_ & a & xa & b & xb & Hab & Ha & Hb & _ & D)|[(b & xb & _ & _ & Hb & ->)|(a & xa & _ & _ & Ha & ->)]]]; eauto.
  destruct (BL _ _ Ha) as (p & Ep & p1 & p2). destruct (BF _ _ Hb) as (q & Eq & q1 & q2).
  destruct D as [(p' & q' & Ep' & Eq' & v & -> & Hv)|[[N|N] ->]]; [|exfalso; apply (N p Ep)|exfalso; apply (N q Eq)].
  exists v. split; [reflexivity|]. rewrite Ep in Ep'. injection Ep' as <-. rewrite Eq in Eq'. injection Eq' as <-.
  unfold Z.sub in Hv. rewrite !inject_Z_plus, !inject_Z_opp in Hv.
  assert (I1 : (inject_Z (Z.of_nat a) < inject_Z (Z.of_nat j))%Q) by (rewrite <- Zlt_Qlt; lia). assert (I2 : (inject_Z (Z.of_nat j) < inject_Z (Z.of_nat b))%Q) by (rewrite <- Zlt_Qlt; lia).
  set (A := inject_Z (Z.of_nat a)) in *. set (J := inject_Z (Z.of_nat j)) in *. set (Bq := inject_Z (Z.of_nat b)) in *. clearbody A J Bq. clear - Hv I1 I2 p1 p2 q1 q2. split; nra.
Qed.
