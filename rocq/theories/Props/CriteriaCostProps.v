(** C108: what the criteria say about the costs. *)
From Coq Require Import ZArith NArith List Bool Arith Lia.
From Verif Require Import Base.Ext Base.Arr Base.PyList Model.CommonModel Model.DisparityModel Model.ImgShiftModel Model.MatchingCostModel Model.CriteriaModel
  Spec.WtaSpec Spec.MaskSpec Spec.ShiftSpec Spec.MatchingCostSpec Spec.CriteriaSpec Spec.CriteriaCostSpec Props.MatchingCostProps Props.CriteriaProps.
Import ListNotations.
Open Scope Z_scope.

Section Costs.
  Context {px : Type} (px_eqb : px -> px -> bool).
  Hypothesis px_eq : forall x y, px_eqb x y = true <-> x = y.
  Variables (cost : list (list px) -> list (list Z) -> nat -> nat -> nat -> ext) (interp : nat -> nat -> px).
  Variables (m : mc_input) (right : image px) (ci : crit_input) (cv : cost_volumes).
  Hypothesis wf : wf_mc m right.
  Hypothesis Hsub : mc_subpix m = 1%nat.
  Hypothesis Hrow : mc_step_row m = 1.
  Hypothesis Hcol : mc_step_col m = 1.
  Hypothesis Ecv : compute_cost_volumes px_eqb cost interp m right = Some cv.
  Hypothesis Sm : same_matching m right cv ci.
  Hypothesis Contract : masks_contract ci cost.

  Lemma matching_wf_crit : wf_crit ci.
  Proof.
    destruct Sm as [[_ Sr] [_ Sc] _ Sw Sl Sg (G1 & G2 & G3 & G4)]. split; [|split].
    - intros k [E|E]; [rewrite Sr, Sc; apply Sl; exact E|]. rewrite E in Sg. rewrite Sr, Sc. tauto.
    - intros g Hg. rewrite Sr, Sc. destruct wf as (_ & _ & _ & _ & _ & _ & _ & W & _). apply W. destruct Hg as [->|[->|[->| ->]]]; [rewrite G1|rewrite G2|rewrite G3|rewrite G4]; auto.
    - rewrite Sw. rewrite Nat.add_1_r. rewrite Nat.odd_succ. apply Nat.even_spec. exists (ci_offset ci). reflexivity.
  Qed.
  Lemma half_window : Z.of_nat ((ci_window ci - 1) / 2) = half ci.
  Proof.
    destruct Sm as [_ _ _ Sw _ _ _]. rewrite Sw. unfold half. f_equal. replace (2 * ci_offset ci + 1 - 1)%nat with (ci_offset ci * 2)%nat by lia. apply Nat.div_mul. lia.
  Qed.
  Lemma moved_mask_at dr r c : inside ci r c ->
    (a2_get (moved_mask px_eqb interp right 1 dr) (Z.to_nat r) (Z.to_nat c) = 1 <->
     ~ (0 <= r + dr < Z.of_nat (ci_nrow ci)) \/ (inside ci (r + dr) c /\ a2_get (im_data right) (Z.to_nat (r + dr)) (Z.to_nat c) = im_no_data right)).
  Proof.
    intros [Hr Hc]. destruct Sm as [[_ Sr] [_ Sc] _ _ _ _ _]. destruct wf as (_ & _ & _ & _ & _ & W0 & W1 & _).
    cbn [moved_mask right_moved a2_get]. unfold right_value. rewrite W0, <- Sr, Z2Nat.id by lia. change (Z.of_nat 1) with 1. rewrite !Z.mul_1_r, Z.mod_1_r, Z.div_1_r, Z.eqb_refl.
    destruct (Z.leb_spec 0 (r + dr)), (Z.leb_spec (r + dr) (Z.of_nat (ci_nrow ci) - 1)); cbn [andb].
    - destruct (px_eqb _ _) eqn:E.
      + apply px_eq in E. split; [|reflexivity]. intros _. right. split; [split; lia | exact E].
      + split; [discriminate|]. intros [N|[_ N]]; [lia|]. apply px_eq in N. congruence.
    - split; [|intros _; now rewrite (proj2 (px_eq _ _) eq_refl)]. intros _. left. lia.
    - split; [|intros _; now rewrite (proj2 (px_eq _ _) eq_refl)]. intros _. left. lia.
    - lia.
  Qed.

  (** The window is in the image. *)
  Lemma leaves_not r c : window_leaves ci r c \/ (half ci <= r <= Z.of_nat (ci_nrow ci) - 1 - half ci /\ half ci <= c <= Z.of_nat (ci_ncol ci) - 1 - half ci).
  Proof. unfold window_leaves, half. cbv zeta. lia. Qed.
  Lemma reason_iff r c dc dr : (r < ci_nrow ci)%nat -> (c < ci_ncol ci)%nat ->
    (no_cost_reason ci (moved_mask px_eqb interp right 1 dr) r c dc <->
     on_border ci r c \/ window_leaves ci (Z.of_nat r + dr) (Z.of_nat c + dc) \/
     (exists k, ci_left_msk ci = Some k /\ no_data_in_window ci k (half ci) (Z.of_nat r) (Z.of_nat c)) \/
     (exists k, ci_left_msk ci = Some k /\ masked_otherwise k (Z.of_nat r) (Z.of_nat c)) \/
     (exists k, ci_right_msk ci = Some k /\ inside ci (Z.of_nat r + dr) (Z.of_nat c + dc) /\ no_data_in_window ci k (half ci) (Z.of_nat r + dr) (Z.of_nat c + dc))).
  Proof.
    intros Hr Hc.
    assert (B : window_leaves ci (Z.of_nat r) (Z.of_nat c) <-> on_border ci r c).
    { unfold window_leaves, on_border. cbv zeta. lia. }
    pose proof (leaves_not (Z.of_nat r) (Z.of_nat c)) as D1. pose proof (leaves_not (Z.of_nat r + dr) (Z.of_nat c + dc)) as D2.
    assert (Hh : 0 <= half ci) by (unfold half; lia).
    assert (Rd : forall k r' c', ci_right_msk ci = Some k -> inside ci r' c' -> (mask_at k r' c' = mk_no_data k <-> a2_get (im_data right) (Z.to_nat r') (Z.to_nat c') = im_no_data right)).
    { intros k r' c' E I. destruct Sm as [_ _ _ _ _ Sg _]. rewrite E in Sg. apply Sg. exact I. }
    split.
    - intros [L|[L|[(k & E & [L|L])|(r' & c' & I & A1 & A2 & V)]]].
      + left. apply B. exact L.
      + destruct D1 as [D1|D1]; [left; apply B; exact D1|]. right. left. unfold window_leaves, half in *. cbv zeta in *. lia.
      + right. right. left. eauto.
      + right. right. right. left. eauto.
      + destruct D1 as [D1|D1]; [left; apply B; exact D1|]. destruct D2 as [D2|D2]; [right; left; exact D2|].
        apply moved_mask_at in V; [|exact I]. destruct V as [V|[I' V]]; [exfalso; destruct I; lia|].
        destruct (ci_right_msk ci) as [k|] eqn:E.
        * do 4 right. exists k. split; [reflexivity|]. split; [unfold inside; lia|]. exists (r' + dr), c'. split; [exact I'|]. split; [lia|]. split; [lia|]. apply Rd; [reflexivity | exact I' | exact V].
        * exfalso. destruct Sm as [_ _ _ _ _ Sg _]. rewrite E in Sg. exact (Sg _ _ I' V).
    - intros [L|[L|[(k & E & L)|[(k & E & L)|(k & E & I & r' & c' & I' & A1 & A2 & V)]]]].
      + left. apply B. exact L.
      + destruct D1 as [D1|D1]; [left; exact D1|].
        destruct (leaves_not (Z.of_nat r) (Z.of_nat c + dc)) as [D3|D3]; [right; left; exact D3|].
        (* the rows of the window of the right image leave it: the moved image has no data there *)
        assert (X : exists r', Z.abs (r' - Z.of_nat r) <= half ci /\ ~ (0 <= r' + dr < Z.of_nat (ci_nrow ci))).
        { unfold window_leaves in L. cbv zeta in L. fold (half ci) in L. destruct (Z.lt_ge_cases (Z.of_nat r + dr) (half ci)); [exists (Z.of_nat r - half ci); lia|]. exists (Z.of_nat r + half ci). lia. }
        destruct X as (r' & X1 & X2). do 3 right. exists r', (Z.of_nat c + dc). assert (I : inside ci r' (Z.of_nat c + dc)) by (unfold inside; lia).
        split; [exact I|]. split; [exact X1|]. split; [lia|]. apply moved_mask_at; [exact I|]. left. exact X2.
      + right. right. left. eauto.
      + right. right. left. eauto.
      + destruct D1 as [D1|D1]; [left; exact D1|]. destruct (leaves_not (Z.of_nat r) (Z.of_nat c + dc)) as [D3|D3]; [right; left; exact D3|].
        do 3 right. exists (r' - dr), c'. assert (I2 : inside ci (r' - dr) c') by (destruct I'; unfold inside; lia). split; [exact I2|]. split; [lia|]. split; [lia|].
        apply moved_mask_at; [exact I2|]. right. replace (r' - dr + dr) with r' by lia. split; [exact I'|]. apply Rd with k; assumption.
  Qed.

  (** For the disparities that the user asks, a cost is computed exactly where the criteria are VALID or only tell that the right pixel is masked. *)
  Theorem C108_costs : exists crit, get_criteria_dataarray ci = Some crit /\
    forall r c i j dc dr, (r < mc_nrow m)%nat -> (c < mc_ncol m)%nat -> nth_error (cv_disp_col cv) i = Some dc -> nth_error (cv_disp_row cv) j = Some dr -> asked m dc dr ->
      exists x, cost_at cv r c i j = Some x /\ (x <> NaN <-> a4_get crit r c i j = VALID \/ a4_get crit r c i j = INVALIDITY_MASK_RIGHT).
  Proof.
    destruct (C24_cost_volumes_step1 px_eqb cost interp m right wf Hrow Hcol) as (cv' & E & _ & _ & _ & G). rewrite Ecv in E. injection E as <-.
    pose proof matching_wf_crit as Wc.
    destruct (C09_flags_mean_what_they_say ci Wc) as (crit & Ec & _ & _ & _ & _ & F).
    destruct (C10_unprocessed_and_border_override ci Wc) as (crit' & Ec' & O). rewrite Ec in Ec'. injection Ec' as <-.
    exists crit. split; [exact Ec|]. intros r c i j dc dr Hr Hc Hi Hj [[A1 A2] [A3 A4]].
    destruct Sm as [[_ Sr] [_ Sc] [Sd1 Sd2] Sw Sl Sg (G1 & G2 & G3 & G4)].
    specialize (F r c i j dc dr ltac:(lia) ltac:(lia) ltac:(congruence) ltac:(congruence)). specialize (O r c i j dc dr ltac:(lia) ltac:(lia) ltac:(congruence) ltac:(congruence)).
    destruct (G r c i j dc dr Hr Hc Hi Hj) as [M1 M2]. rewrite Hsub in M1, M2. change (Z.of_nat 1) with 1 in M1, M2. rewrite !Z.mul_1_r in M1, M2. unfold out_of_pixel_range in M1, M2.
    rewrite half_window in F. cbv zeta in F, O. destruct O as (O1 & O2 & _).
    assert (DU : unprocessed ci r c dc dr \/ ~ unprocessed ci r c dc dr) by (unfold unprocessed; lia).
    assert (DB : on_border ci r c \/ ~ on_border ci r c) by (unfold on_border; lia).
    destruct DU as [U|U].
    - exists NaN. split; [apply M1; unfold unprocessed in U; rewrite G1, G2, G3, G4 in U; clear - U A1 A2 A3 A4; lia|]. rewrite (O1 U). split; [congruence|]. intros [X|X]; discriminate X.
    - eexists. split; [apply M2; unfold unprocessed in U; rewrite G1, G2, G3, G4 in U; clear - U; lia|].
      assert (K : cost (to_list2 (right_moved interp right 1 dr)) (to_list2 (moved_mask px_eqb interp right 1 dr)) r c i = NaN <-> no_cost_reason ci (moved_mask px_eqb interp right 1 dr) r c dc).
      { destruct wf as (_ & _ & _ & _ & _ & W0 & W1 & _). apply Contract; cbn [right_moved moved_mask a2_n0 a2_n1]; congruence || lia. }
      rewrite (reason_iff r c dc dr) in K by lia.
      destruct DB as [Bd|Bd].
      + rewrite (O2 U Bd). split; [intros N; exfalso; apply N; apply K; left; exact Bd|]. intros [X|X]; discriminate X.
      + specialize (F U Bd). set (v := a4_get crit r c i j) in *. split.
        * intros N. assert (Low : forall k, k <> 5%N -> N.testbit v k = false).
          { intros k Hk. destruct (N.testbit v k) eqn:T; [|reflexivity]. exfalso. apply F in T. apply N, K.
            destruct T as [(_ & T)|[(_ & k' & T)|[(_ & T)|[(_ & T)|(T & _)]]]]; [tauto|do 4 right; exists k'; exact T|tauto|tauto|congruence]. }
          destruct (N.testbit v 5) eqn:T5; [right|left]; apply N.bits_inj; intros k; destruct (N.eq_dec k 5) as [->|Hk].
          -- rewrite T5. reflexivity.
          -- rewrite (Low k Hk). symmetry. change INVALIDITY_MASK_RIGHT with (2 ^ 5)%N. rewrite N.pow2_bits_eqb. apply N.eqb_neq. congruence.
          -- rewrite T5. reflexivity.
          -- rewrite (Low k Hk). symmetry. apply N.bits_0.
        * intros V N. apply K in N. assert (Low : forall k, (k = 1 \/ k = 2 \/ k = 3 \/ k = 4)%N -> N.testbit v k = false) by (intros k Hk; destruct V as [-> | ->]; destruct Hk as [-> | [-> | [-> | ->]]]; reflexivity).
          assert (No : forall k, (k = 1 \/ k = 2 \/ k = 3 \/ k = 4)%N -> N.testbit v k = true -> False) by (intros k Hk T; rewrite (Low k Hk) in T; discriminate).
          destruct N as [N|[N|[N|[N|(k & N)]]]]; [contradiction| | | |].
          -- apply (No 3%N); [auto|]. apply F. do 2 right. left. auto.
          -- apply (No 1%N); [auto|]. apply F. left. auto.
          -- apply (No 4%N); [auto|]. apply F. do 3 right. left. auto.
          -- apply (No 2%N); [auto|]. apply F. right. left. split; [reflexivity|]. exists k. exact N.
  Qed.

  (** The disparities of the margins are all marked unprocessed, with or without a cost. *)
  Theorem C108_margins : exists crit, get_criteria_dataarray ci = Some crit /\
    forall r c i j dc dr, (r < mc_nrow m)%nat -> (c < mc_ncol m)%nat -> nth_error (cv_disp_col cv) i = Some dc -> nth_error (cv_disp_row cv) j = Some dr -> ~ asked m dc dr ->
      a4_get crit r c i j = DISPARITY_UNPROCESSED.
  Proof.
    pose proof matching_wf_crit as Wc. destruct (C10_unprocessed_and_border_override ci Wc) as (crit & Ec & O). exists crit. split; [exact Ec|].
    intros r c i j dc dr Hr Hc Hi Hj A. destruct Sm as [[_ Sr] [_ Sc] [Sd1 Sd2] Sw Sl Sg (G1 & G2 & G3 & G4)].
    destruct (O r c i j dc dr ltac:(lia) ltac:(lia) ltac:(congruence) ltac:(congruence)) as (O1 & _). apply O1. unfold unprocessed. rewrite G1, G2, G3, G4.
    destruct wf as (_ & _ & _ & _ & _ & _ & _ & W & [T1 _] & [T2 _]). unfold asked in A.
    assert (I1 : in2 (mc_row_min m) r c) by (destruct (W (mc_row_min m)) as [X1 X2]; [auto|]; unfold in2; rewrite X1, X2; lia).
    assert (I2 : in2 (mc_col_min m) r c) by (destruct (W (mc_col_min m)) as [X1 X2]; [auto|]; unfold in2; rewrite X1, X2; lia).
    specialize (T1 r c I1). specialize (T2 r c I2). lia.
  Qed.
End Costs.

(** ** A cost that keeps the contract *)
Definition leavesb (ci : crit_input) (r c : Z) : bool :=
  negb ((half ci <=? r) && (r <=? Z.of_nat (ci_nrow ci) - 1 - half ci) && ((half ci <=? c) && (c <=? Z.of_nat (ci_ncol ci) - 1 - half ci))).
Definition in_windowb (ci : crit_input) (marked : nat -> nat -> bool) (r c : Z) : bool :=
  existsb (fun p => (Z.abs (Z.of_nat (fst p) - r) <=? half ci) && (Z.abs (Z.of_nat (snd p) - c) <=? half ci) && marked (fst p) (snd p))
    (list_prod (seq 0 (ci_nrow ci)) (seq 0 (ci_ncol ci))).
Definition masked_cost {px} (ci : crit_input) (data : list (list px)) (msk : list (list Z)) (r c i : nat) : ext :=
  match nth_error (ci_disp_col ci) i with
  | None => NaN
  | Some dc =>
      if leavesb ci (Z.of_nat r) (Z.of_nat c) || leavesb ci (Z.of_nat r) (Z.of_nat c + dc) ||
         match ci_left_msk ci with
         | None => false
         | Some k => in_windowb ci (fun r' c' => a2_get (mk_data k) r' c' =? mk_no_data k) (Z.of_nat r) (Z.of_nat c) ||
                     (negb (a2_get (mk_data k) r c =? mk_no_data k) && negb (a2_get (mk_data k) r c =? mk_valid k))
         end || in_windowb ci (fun r' c' => nth c' (nth r' msk []) 0 =? 1) (Z.of_nat r) (Z.of_nat c + dc)
      then NaN else Fin (Z.of_nat i)
  end.

Lemma leavesb_ok ci r c : leavesb ci r c = true <-> window_leaves ci r c.
Proof.
  unfold leavesb, window_leaves. cbv zeta. fold (half ci). rewrite negb_true_iff.
  destruct (Z.leb_spec (half ci) r), (Z.leb_spec r (Z.of_nat (ci_nrow ci) - 1 - half ci)), (Z.leb_spec (half ci) c), (Z.leb_spec c (Z.of_nat (ci_ncol ci) - 1 - half ci));
    cbn [andb]; split; intros X; try discriminate; try reflexivity; try lia; exfalso; apply X; lia.
Qed.
Lemma in_windowb_ok ci marked r c :
  in_windowb ci marked r c = true <->
  exists r' c', inside ci r' c' /\ Z.abs (r' - r) <= half ci /\ Z.abs (c' - c) <= half ci /\ marked (Z.to_nat r') (Z.to_nat c') = true.
Proof.
  unfold in_windowb. rewrite existsb_exists. split.
  - intros ((a & b) & I & H). apply in_prod_iff in I. destruct I as [I1 I2]. apply in_seq in I1, I2. cbn [fst snd] in H. apply andb_true_iff in H as [H H3]. apply andb_true_iff in H as [H1 H2].
    apply Z.leb_le in H1, H2. exists (Z.of_nat a), (Z.of_nat b). rewrite !Nat2Z.id. split; [split; lia|]. auto.
  - intros (r' & c' & [I1 I2] & H1 & H2 & H3). exists (Z.to_nat r', Z.to_nat c'). split; [apply in_prod; apply in_seq; lia|]. cbn [fst snd].
    rewrite H3, !Z2Nat.id by lia. rewrite (proj2 (Z.leb_le _ _) H1), (proj2 (Z.leb_le _ _) H2). reflexivity.
Qed.
Lemma nth_to_list2 (a : arr2 Z) r c : (r < a2_n0 a)%nat -> (c < a2_n1 a)%nat -> nth c (nth r (to_list2 a) []) 0 = a2_get a r c.
Proof.
  intros Hr Hc. unfold to_list2. rewrite (nth_indep _ [] (map (fun c => a2_get a 0 c) (seq 0 (a2_n1 a)))) by (rewrite map_length, seq_length; exact Hr).
  rewrite (map_nth (fun r => map (fun c => a2_get a r c) (seq 0 (a2_n1 a))) (seq 0 (a2_n0 a)) 0%nat r), seq_nth by exact Hr. cbn [plus].
  rewrite (nth_indep _ 0 (a2_get a r 0)) by (rewrite map_length, seq_length; exact Hc). change (nth c (map (a2_get a r) (seq 0 (a2_n1 a))) (a2_get a r 0%nat) = a2_get a r c). rewrite (map_nth (a2_get a r) (seq 0 (a2_n1 a)) 0%nat c), seq_nth by exact Hc. reflexivity.
Qed.
Lemma masked_cost_contract {px} ci : masks_contract (px := px) ci (masked_cost ci).
Proof.
  intros data msk r c i dc _ _ H0 H1 Hr Hc Hi. unfold masked_cost. rewrite Hi.
  match goal with |- (if ?b then _ else _) = NaN <-> _ => assert (B : b = true <-> no_cost_reason ci msk r c dc) end; [|destruct (_ || _); split; intros X; try discriminate; try reflexivity; [apply B; reflexivity | apply B in X; discriminate]].
  rewrite !orb_true_iff, !leavesb_ok, in_windowb_ok. unfold no_cost_reason.
  assert (L : match ci_left_msk ci with
              | None => false
              | Some k => in_windowb ci (fun r' c' => a2_get (mk_data k) r' c' =? mk_no_data k) (Z.of_nat r) (Z.of_nat c) ||
                          (negb (a2_get (mk_data k) r c =? mk_no_data k) && negb (a2_get (mk_data k) r c =? mk_valid k))
              end = true <->
              exists k, ci_left_msk ci = Some k /\ (no_data_in_window ci k (half ci) (Z.of_nat r) (Z.of_nat c) \/ masked_otherwise k (Z.of_nat r) (Z.of_nat c))).
  { destruct (ci_left_msk ci) as [k|]; [|split; [discriminate|intros (k & X & _); discriminate]].
    rewrite orb_true_iff, in_windowb_ok, andb_true_iff, !negb_true_iff, !Z.eqb_neq. unfold no_data_in_window, masked_otherwise, mask_at. rewrite !Nat2Z.id. split.
    - intros [(r' & c' & I & A & A' & V)|X]; exists k; (split; [reflexivity|]); [|right; exact X]. left. exists r', c'. apply Z.eqb_eq in V. auto.
    - intros (k' & E & X). injection E as <-. destruct X as [(r' & c' & I & A & A' & V)|X]; [|right; exact X]. left. exists r', c'. apply Z.eqb_eq in V. auto. }
  rewrite L. assert (R : forall r' c', inside ci r' c' -> ((nth (Z.to_nat c') (nth (Z.to_nat r') (to_list2 msk) []) 0 =? 1) = true <-> a2_get msk (Z.to_nat r') (Z.to_nat c') = 1)).
  { intros r' c' [I1 I2]. rewrite nth_to_list2 by lia. apply Z.eqb_eq. }
  split.
  - intros [[[X|X]|X]|(r' & c' & I & A & A' & V)]; [tauto|tauto|tauto|]. do 3 right. exists r', c'. split; [exact I|]. split; [exact A|]. split; [exact A'|]. apply R; assumption.
  - intros [X|[X|[X|(r' & c' & I & A & A' & V)]]]; [tauto|tauto|tauto|]. right. exists r', c'. split; [exact I|]. split; [exact A|]. split; [exact A'|]. apply R; assumption.
Qed.

(** 4 x 5 images, window 3, column disparities -1 .. 1 and row disparities 0 .. 1, margins of one disparity. The pixel (1, 1) has no column disparity -1. The left pixel (2, 3) is masked by 2; the right
    pixel (1, 2) is masked by 2 and the right pixel (3, 4) is no data. *)
Definition w21_mc : mc_input :=
  mkMC 10 4 20 5 (arr_of (repeat (repeat 0 5) 4)) (arr_of (repeat (repeat 1 5) 4))
    (arr_of [[-1; -1; -1; -1; -1]; [-1; 0; -1; -1; -1]; [-1; -1; -1; -1; -1]; [-1; -1; -1; -1; -1]]) (arr_of (repeat (repeat 1 5) 4)) (0, 1) (-1, 1) 1 1 1 MeasureMin (Some (mkMargins 1 1 1 1)) None.
Definition w21_right : image Z := mkImage (arr_of [[1; 2; 3; 4; 5]; [6; 7; 8; 9; 10]; [11; 12; 13; 14; 15]; [16; 17; 18; 19; -9999]]) (-9999) None.
Definition w21_ci : crit_input :=
  mkCrit 10 4 20 5 [-2; -1; 0; 1; 2] [-1; 0; 1; 2] 3 1
    (Some (mkMask (arr_of [[0; 0; 0; 0; 0]; [0; 0; 0; 0; 0]; [0; 0; 0; 2; 0]; [0; 0; 0; 0; 0]]) 1 0))
    (Some (mkMask (arr_of [[0; 0; 0; 0; 0]; [0; 0; 2; 0; 0]; [0; 0; 0; 0; 0]; [0; 0; 0; 0; 1]]) 1 0))
    (mc_col_min w21_mc) (mc_col_max w21_mc) (mc_row_min w21_mc) (mc_row_max w21_mc).
Definition w21_cv : option cost_volumes := compute_cost_volumes Z.eqb (masked_cost w21_ci) (fun _ _ => 0) w21_mc w21_right.
Lemma w21_wf : wf_mc w21_mc w21_right.
Proof.
  unfold wf_mc. cbn [w21_mc mc_nrow mc_ncol mc_subpix mc_step_row mc_step_col mc_row_min mc_row_max mc_col_min mc_col_max mc_row_source mc_col_source]. repeat (split; [lia || reflexivity|]).
  split. { intros g [-> | [-> | [-> | ->]]]; split; reflexivity. }
  split; (split; [|split; exists 0%nat, 0%nat; (split; [split; cbn; lia|reflexivity])]);
    intros r c [Hr Hc]; cbn in Hr, Hc; do 4 (destruct r as [|r]; [do 5 (destruct c as [|c]; [cbn; lia|]); lia|]); lia.
Qed.
Lemma w21_total : exists cv, w21_cv = Some cv.
Proof.
  unfold w21_cv. destruct (C24_cost_volumes_step1 Z.eqb (masked_cost w21_ci) (fun _ _ => 0) w21_mc w21_right w21_wf eq_refl eq_refl) as (cv & E & _). exists cv. exact E.
Qed.
Lemma w21_same cv : w21_cv = Some cv -> same_matching w21_mc w21_right cv w21_ci.
Proof.
  intros E. assert (D : option_map cv_disp_col w21_cv = Some [-2; -1; 0; 1; 2] /\ option_map cv_disp_row w21_cv = Some [-1; 0; 1; 2]) by (vm_compute; auto).
  rewrite E in D. cbn [option_map] in D. destruct D as [D1 D2]. injection D1 as D1. injection D2 as D2. split.
  - split; reflexivity.
  - split; reflexivity.
  - rewrite D1, D2. split; reflexivity.
  - reflexivity.
  - intros k X. injection X as <-. split; reflexivity.
  - cbn [w21_ci ci_right_msk]. split; [reflexivity|]. split; [reflexivity|]. intros r c [Hr Hc]. cbn in Hr, Hc. unfold mask_at.
    assert (Er : r = 0 \/ r = 1 \/ r = 2 \/ r = 3) by lia. assert (Ec : c = 0 \/ c = 1 \/ c = 2 \/ c = 3 \/ c = 4) by lia.
    destruct Er as [-> | [-> | [-> | ->]]]; destruct Ec as [-> | [-> | [-> | [-> | ->]]]]; vm_compute; split; intros X; try discriminate X; reflexivity.
  - repeat split; reflexivity.
Qed.

(** At (1, 1): no match at the column disparity -1, masked right pixel but a cost at the column disparity 1, a cost at 0; at (1, 2) and row disparity 1, the window of the column disparity 1 has a no data pixel. *)
Example C108_example : wf_mc w21_mc w21_right /\ masks_contract (px := Z) w21_ci (masked_cost w21_ci) /\
  exists cv, w21_cv = Some cv /\ same_matching w21_mc w21_right cv w21_ci /\ asked w21_mc 1 1 /\
    map (fun i => cost_at cv 1 1 i 1) [1; 2; 3]%nat = [Some NaN; Some (Fin 2); Some (Fin 3)] /\ cost_at cv 1 2 3 2 = Some NaN /\ cost_at cv 1 2 2 2 = Some (Fin 2) /\
    option_map (fun crit => map (fun i => a4_get crit 1 1 i 1) [1; 2; 3]%nat) (get_criteria_dataarray w21_ci) = Some [DISPARITY_UNPROCESSED; VALID; INVALIDITY_MASK_RIGHT] /\
    option_map (fun crit => (a4_get crit 1 2 3 2, a4_get crit 1 2 2 2)) (get_criteria_dataarray w21_ci) = Some (RIGHT_NODATA, VALID).
Proof.
  split; [exact w21_wf|]. split; [exact (masked_cost_contract w21_ci)|].
  destruct w21_total as (cv & E). exists cv.
  split; [exact E|]. split; [exact (w21_same cv E)|]. split; [unfold asked; cbn; lia|].
  assert (X : option_map (fun cv => (map (fun i => cost_at cv 1 1 i 1) [1; 2; 3]%nat, cost_at cv 1 2 3 2, cost_at cv 1 2 2 2)) w21_cv = Some ([Some NaN; Some (Fin 2); Some (Fin 3)], Some NaN, Some (Fin 2))) by (vm_compute; reflexivity).
  rewrite E in X. cbn [option_map] in X. injection X as X1 X2 X3 X4 X5. split; [cbn [map]; congruence|]. split; [exact X4|]. split; [exact X5|]. split; vm_compute; reflexivity.
Qed.

(** "A cost is computed exactly where the criteria are VALID" is false: a right pixel masked otherwise than by no data has its flag and a cost, which the disparity step uses; so have the disparities of the margins. *)
Theorem C108_valid_refuted : exists (m : mc_input) (right : image Z) (ci : crit_input) cost cv crit,
  wf_mc m right /\ masks_contract ci cost /\ compute_cost_volumes Z.eqb cost (fun _ _ => 0) m right = Some cv /\ same_matching m right cv ci /\ get_criteria_dataarray ci = Some crit /\
  (exists r c i j dc dr, nth_error (cv_disp_col cv) i = Some dc /\ nth_error (cv_disp_row cv) j = Some dr /\ asked m dc dr /\
     cost_at cv r c i j <> Some NaN /\ cost_at cv r c i j <> None /\ a4_get crit r c i j = INVALIDITY_MASK_RIGHT) /\
  (exists r c i j dc dr, nth_error (cv_disp_col cv) i = Some dc /\ nth_error (cv_disp_row cv) j = Some dr /\ ~ asked m dc dr /\
     cost_at cv r c i j <> Some NaN /\ cost_at cv r c i j <> None /\ a4_get crit r c i j = DISPARITY_UNPROCESSED).
Proof.
  destruct w21_total as (cv & E).
  pose proof (w21_same cv E) as Sm. pose proof Sm as [_ _ [D1 D2] _ _ _ _].
  destruct (C09_flags_mean_what_they_say w21_ci (matching_wf_crit w21_mc w21_right w21_ci cv w21_wf Sm)) as (crit & Ec & _).
  exists w21_mc, w21_right, w21_ci, (masked_cost w21_ci), cv, crit. split; [exact w21_wf|]. split; [exact (masked_cost_contract w21_ci)|]. split; [unfold w21_cv in E; exact E|]. split; [exact Sm|]. split; [exact Ec|].
  assert (X : option_map (fun cv => (cost_at cv 1 1 3 1, cost_at cv 1 1 4 1)) w21_cv = Some (Some (Fin 3), Some (Fin 4))) by (vm_compute; reflexivity).
  rewrite E in X. cbn [option_map] in X. injection X as X1 X2.
  assert (Y : option_map (fun crit => (a4_get crit 1 1 3 1, a4_get crit 1 1 4 1)) (get_criteria_dataarray w21_ci) = Some (INVALIDITY_MASK_RIGHT, DISPARITY_UNPROCESSED)) by (vm_compute; reflexivity).
  rewrite Ec in Y. cbn [option_map] in Y. injection Y as Y1 Y2.
  split; [exists 1%nat, 1%nat, 3%nat, 1%nat, 1, 0 | exists 1%nat, 1%nat, 4%nat, 1%nat, 2, 0]; rewrite <- D1, <- D2.
  - split; [reflexivity|]. split; [reflexivity|]. split; [unfold asked; cbn; lia|]. rewrite X1. split; [discriminate|]. split; [discriminate | exact Y1].
  - split; [reflexivity|]. split; [reflexivity|]. split; [unfold asked; cbn; lia|]. rewrite X2. split; [discriminate|]. split; [discriminate | exact Y2].
Qed.

Print Assumptions C108_costs.
Print Assumptions C108_margins.
Print Assumptions C108_valid_refuted.
