(** The cost volumes for any grids and any step: when their computation fails, and the interval used for each pixel otherwise. *)
From Coq Require Import ZArith List Lia Bool Arith.
From Verif Require Import Base.Ext Base.PyList Base.Arr Base.ZRange Model.DisparityModel Model.CommonModel
  Model.ImgShiftModel Model.MatchingCostModel Spec.MaskSpec Spec.ShiftSpec Spec.MatchingCostSpec Spec.WtaSpec
  Proofs.MaskProofs Proofs.ShiftProofs Proofs.WtaProofs Proofs.WtaTheorems Proofs.MatchingCostProofs.
Import ListNotations.
Open Scope Z_scope.

Section P.
  Context {px : Type} (px_eqb : px -> px -> bool).
  Variable pandora_cost : list (list px) -> list (list Z) -> nat -> nat -> nat -> ext.
  Variable zoomed : nat -> nat -> px.
  Variables (m : mc_input) (right : image px).
  Hypothesis wf : wf_mc m right.
  Let s := Z.of_nat (mc_subpix m).

  (** The pixel of this index has an interval that is not the whole one. *)
  Definition narrow (gmin gmax : arr2 Z) (src : Z * Z) (r c : nat) : Prop := a2_get gmin r c <> fst src \/ a2_get gmax r c <> snd src.
  (** Some disparity of the list is masked for the pixel exactly when its interval is not the whole one. *)
  Lemma narrow_masked gmin gmax src (ds : list Z) r c : tight_source gmin gmax src -> in2 gmin r c ->
    (forall d, fst src * s <= d <= snd src * s -> In d ds) ->
    (narrow gmin gmax src r c <-> exists k, (k < length ds)%nat /\
       to_mask (Some (scale_pair (mc_subpix m) src)) (nth k ds 0) (a2_get (scale_grid (mc_subpix m) gmin) r c) (a2_get (scale_grid (mc_subpix m) gmax) r c) = true).
  Proof.
    intros T I Hall. assert (T' := T). destruct T' as (T1 & _). destruct (T1 r c I) as (A & B & C).
    destruct wf as (_ & _ & W3 & _). assert (Hs : 1 <= s) by (unfold s; lia).
    pose proof (fun d => mask_scaled m gmin gmax src r c d T I) as M. unfold in_pixel_range in M. fold s in M. split.
    - intros N. assert (exists d, In d ds /\ fst src * s <= d <= snd src * s /\ ~ (a2_get gmin r c * s <= d <= a2_get gmax r c * s)) as (d & D1 & D2 & D3).
      { destruct N as [N|N].
        - exists (fst src * s). assert (fst src * s <= fst src * s <= snd src * s) by nia. split; [now apply Hall|]. split; [assumption|]. nia.
        - exists (snd src * s). assert (fst src * s <= snd src * s <= snd src * s) by nia. split; [now apply Hall|]. split; [assumption|]. nia. }
      destruct (In_nth _ _ 0 D1) as (k & Hk & Ek). exists k. split; [exact Hk|]. rewrite Ek. specialize (M d).
      destruct (to_mask (Some (scale_pair (mc_subpix m) src)) d (a2_get (scale_grid (mc_subpix m) gmin) r c) (a2_get (scale_grid (mc_subpix m) gmax) r c)); [reflexivity|].
      exfalso. destruct (proj1 M eq_refl) as [X|X]; auto.
    - intros (k & Hk & E). specialize (M (nth k ds 0)). rewrite E in M. unfold narrow.
      destruct (Z.eq_dec (a2_get gmin r c) (fst src)) as [E1|]; [|now left]. destruct (Z.eq_dec (a2_get gmax r c) (snd src)) as [E2|]; [|now right].
      exfalso. rewrite E1, E2 in M. assert (true = false); [|discriminate]. apply M.
      destruct (Z_le_dec (fst src * s) (nth k ds 0)), (Z_le_dec (nth k ds 0) (snd src * s)); [right; lia | left; lia | left; lia | left; lia].
  Qed.

  Lemma row_range_all d : fst (mc_row_source m) * s <= d <= snd (mc_row_source m) * s -> In d (row_range m).
  Proof.
    intros H. assert (Hs : 0 <= s) by (unfold s; lia). unfold row_range, margins_of. fold s.
    destruct (mc_margins m) as [g|]; apply zarange_In; try lia; rewrite Z.mod_1_r; (split; [nia|reflexivity]).
  Qed.
  Lemma col_range_all d : fst (mc_col_source m) * s <= d <= snd (mc_col_source m) * s -> In d (col_range m).
  Proof.
    intros H. assert (Hs : 0 <= s) by (unfold s; lia). unfold col_range, margins_of. fold s.
    destruct (mc_margins m) as [g|]; apply zarange_In; try lia; rewrite Z.mod_1_r; (split; [nia|reflexivity]).
  Qed.

  (** The masking by indices: it succeeds when every pixel with a narrow interval has an index in the volume. *)
  Lemma mask_row gmin gmax src ds (data : arr4 ext) : tight_source gmin gmax src -> (forall d, fst src * s <= d <= snd src * s -> In d ds) -> a4_n3 data = length ds ->
    ((exists d', set_out_of_row (fun k => nth k ds 0) (scale_grid (mc_subpix m) gmin) (scale_grid (mc_subpix m) gmax) NaN (Some (scale_pair (mc_subpix m) src)) data = Some d') <->
      forall r c, in2 gmin r c -> narrow gmin gmax src r c -> (r < a4_n0 data)%nat /\ (c < a4_n1 data)%nat) /\
    forall d', set_out_of_row (fun k => nth k ds 0) (scale_grid (mc_subpix m) gmin) (scale_grid (mc_subpix m) gmax) NaN (Some (scale_pair (mc_subpix m) src)) data = Some d' ->
      same_shape4 d' data /\
      forall r c i j, in2 gmin r c -> (j < length ds)%nat ->
        (in_pixel_range m gmin gmax src r c (nth j ds 0) -> a4_get d' r c i j = a4_get data r c i j) /\
        (~ in_pixel_range m gmin gmax src r c (nth j ds 0) -> a4_get d' r c i j = NaN).
  Proof.
    intros T Hall Hn. unfold set_out_of_row. rewrite Hn. split.
    - rewrite <- (loop_row_total NaN _ _ (fun k r c => to_mask (Some (scale_pair (mc_subpix m) src)) (nth k ds 0) (a2_get (scale_grid (mc_subpix m) gmin) r c) (a2_get (scale_grid (mc_subpix m) gmax) r c)) (seq 0 (length ds)) data).
      split.
      + intros H r c I N. apply (narrow_masked _ _ _ ds _ _ T I Hall) in N. destruct N as (k & Hk & E). destruct I. apply (H k r c); auto. apply in_seq. lia.
      + intros H k r c Hk Hr Hc E. apply in_seq in Hk. assert (I : in2 gmin r c) by (split; assumption). apply H; [exact I|]. apply (narrow_masked _ _ _ ds _ _ T I Hall). exists k. split; [lia|exact E].
    - intros d' E. destruct (loop_row_spec _ _ _ (fun k r c => to_mask (Some (scale_pair (mc_subpix m) src)) (nth k ds 0) (a2_get (scale_grid (mc_subpix m) gmin) r c) (a2_get (scale_grid (mc_subpix m) gmax) r c)) _ _ _ E) as (S & G).
      split; [exact S|]. intros r c i j I Hj. rewrite G. destruct I as (I0 & I1). assert (I : in2 gmin r c) by (split; assumption).
      replace (existsb (Nat.eqb j) (seq 0 (length ds))) with true by (symmetry; apply existsb_exists; exists j; split; [apply in_seq; lia | apply Nat.eqb_refl]).
      replace (r <? a2_n0 (scale_grid (mc_subpix m) gmin))%nat with true by (symmetry; now apply Nat.ltb_lt).
      replace (c <? a2_n1 (scale_grid (mc_subpix m) gmin))%nat with true by (symmetry; now apply Nat.ltb_lt). cbn [andb].
      pose proof (mask_scaled m gmin gmax src r c (nth j ds 0) T I) as M.
      destruct (to_mask (Some (scale_pair (mc_subpix m) src)) (nth j ds 0) (a2_get (scale_grid (mc_subpix m) gmin) r c) (a2_get (scale_grid (mc_subpix m) gmax) r c)).
      + split; [|reflexivity]. intros X. apply M in X. discriminate.
      + split; [reflexivity|]. intros X. exfalso. apply X. now apply M.
  Qed.
  Lemma mask_col gmin gmax src ds (data : arr4 ext) : tight_source gmin gmax src -> (forall d, fst src * s <= d <= snd src * s -> In d ds) -> a4_n2 data = length ds ->
    ((exists d', set_out_of_col (fun k => nth k ds 0) (scale_grid (mc_subpix m) gmin) (scale_grid (mc_subpix m) gmax) NaN (Some (scale_pair (mc_subpix m) src)) data = Some d') <->
      forall r c, in2 gmin r c -> narrow gmin gmax src r c -> (r < a4_n0 data)%nat /\ (c < a4_n1 data)%nat) /\
    forall d', set_out_of_col (fun k => nth k ds 0) (scale_grid (mc_subpix m) gmin) (scale_grid (mc_subpix m) gmax) NaN (Some (scale_pair (mc_subpix m) src)) data = Some d' ->
      same_shape4 d' data /\
      forall r c i j, in2 gmin r c -> (i < length ds)%nat ->
        (in_pixel_range m gmin gmax src r c (nth i ds 0) -> a4_get d' r c i j = a4_get data r c i j) /\
        (~ in_pixel_range m gmin gmax src r c (nth i ds 0) -> a4_get d' r c i j = NaN).
  Proof.
    intros T Hall Hn. unfold set_out_of_col. rewrite Hn. split.
    - rewrite <- (loop_col_total NaN _ _ (fun k r c => to_mask (Some (scale_pair (mc_subpix m) src)) (nth k ds 0) (a2_get (scale_grid (mc_subpix m) gmin) r c) (a2_get (scale_grid (mc_subpix m) gmax) r c)) (seq 0 (length ds)) data).
      split.
      + intros H r c I N. apply (narrow_masked _ _ _ ds _ _ T I Hall) in N. destruct N as (k & Hk & E). destruct I. apply (H k r c); auto. apply in_seq. lia.
      + intros H k r c Hk Hr Hc E. apply in_seq in Hk. assert (I : in2 gmin r c) by (split; assumption). apply H; [exact I|]. apply (narrow_masked _ _ _ ds _ _ T I Hall). exists k. split; [lia|exact E].
    - intros d' E. destruct (loop_col_spec _ _ _ (fun k r c => to_mask (Some (scale_pair (mc_subpix m) src)) (nth k ds 0) (a2_get (scale_grid (mc_subpix m) gmin) r c) (a2_get (scale_grid (mc_subpix m) gmax) r c)) _ _ _ E) as (S & G).
      split; [exact S|]. intros r c i j I Hj. rewrite G. destruct I as (I0 & I1). assert (I : in2 gmin r c) by (split; assumption).
      replace (existsb (Nat.eqb i) (seq 0 (length ds))) with true by (symmetry; apply existsb_exists; exists i; split; [apply in_seq; lia | apply Nat.eqb_refl]).
      replace (r <? a2_n0 (scale_grid (mc_subpix m) gmin))%nat with true by (symmetry; now apply Nat.ltb_lt).
      replace (c <? a2_n1 (scale_grid (mc_subpix m) gmin))%nat with true by (symmetry; now apply Nat.ltb_lt). cbn [andb].
      pose proof (mask_scaled m gmin gmax src r c (nth i ds 0) T I) as M.
      destruct (to_mask (Some (scale_pair (mc_subpix m) src)) (nth i ds 0) (a2_get (scale_grid (mc_subpix m) gmin) r c) (a2_get (scale_grid (mc_subpix m) gmax) r c)).
      + split; [|reflexivity]. intros X. apply M in X. discriminate.
      + split; [reflexivity|]. intros X. exfalso. apply X. now apply M.
  Qed.

  (** The volume never has more rows or columns than the image. *)
  Lemma zarange_short start start' n step : 1 <= step -> start' <= start -> (1 <= n)%nat -> (length (zarange start (start' + Z.of_nat n) step) <= n)%nat.
  Proof.
    intros Hs H Hn. rewrite zarange_length.
    assert ((start' + Z.of_nat n - start + step - 1) / step <= Z.of_nat n); [|lia].
    apply Z.div_le_upper_bound; [lia|]. nia.
  Qed.
  Lemma volume_rows : (length (row_coords m) <= mc_nrow m)%nat /\ (length (col_coords m) <= mc_ncol m)%nat.
  Proof.
    destruct (row_coords_shape m right wf) as (st & Er & H1 & _). destruct (col_coords_shape m right wf) as (st' & Ec & H2 & _).
    destruct wf as (W1 & W2 & _ & Sr & Sc & _). rewrite Er, Ec. split; apply zarange_short; assumption.
  Qed.
  (** With a step, it has less rows as soon as there are two of them. *)
  Lemma zarange_shorter start start' n step : 2 <= step -> start' <= start -> (2 <= n)%nat -> (length (zarange start (start' + Z.of_nat n) step) < n)%nat.
  Proof.
    intros Hs H Hn. rewrite zarange_length.
    assert ((start' + Z.of_nat n - start + step - 1) / step < Z.of_nat n); [|lia].
    apply Z.div_lt_upper_bound; [lia|]. nia.
  Qed.

  (** The volumes, for any grids and any step. *)
  Theorem compute_cost_volumes_any :
    (compute_cost_volumes px_eqb pandora_cost zoomed m right = None <->
      exists r c, (r < mc_nrow m)%nat /\ (c < mc_ncol m)%nat /\ (length (row_coords m) <= r \/ length (col_coords m) <= c)%nat /\
        (narrow (mc_row_min m) (mc_row_max m) (mc_row_source m) r c \/ narrow (mc_col_min m) (mc_col_max m) (mc_col_source m) r c)) /\
    forall cv, compute_cost_volumes px_eqb pandora_cost zoomed m right = Some cv ->
      forall r c i j x di dj, nth_error (row_coords m) r = Some x -> (c < length (col_coords m))%nat ->
        nth_error (cv_disp_col cv) i = Some di -> nth_error (cv_disp_row cv) j = Some dj ->
        (in_pixel_range m (mc_row_min m) (mc_row_max m) (mc_row_source m) r c dj /\ in_pixel_range m (mc_col_min m) (mc_col_max m) (mc_col_source m) r c di ->
           cost_at cv r c i j = Some (cost_for px_eqb pandora_cost zoomed m right dj (Z.to_nat (x - mc_row0 m)) c i)) /\
        (~ (in_pixel_range m (mc_row_min m) (mc_row_max m) (mc_row_source m) r c dj /\ in_pixel_range m (mc_col_min m) (mc_col_max m) (mc_col_source m) r c di) ->
           cost_at cv r c i j = Some NaN).
  Proof.
    assert (wf' := wf). destruct wf' as (W1&W2&W3&_&_&W4&W5&Hg&Tr&Tc). destruct volume_rows as (V1 & V2).
    unfold compute_cost_volumes. rewrite (disps_row_ok m right wf), (disps_col_ok m right wf). cbn [bind].
    destruct (shift_subpix_ok zoomed right (mc_subpix m) W3 ltac:(lia)) as (imgs & Eimgs & _). rewrite Eimgs. cbn [bind].
    destruct (fill_ok px_eqb pandora_cost zoomed m right wf imgs Eimgs) as (data & Ed & N0 & N1 & N2 & N3 & G).
    pose proof (row_range_nonempty m right wf) as Hne. destruct (row_range m) as [|d0 dl] eqn:Err; [congruence|]. rewrite <- Err in *. clear Err Hne d0 dl.
    rewrite Ed. cbn [bind].
    destruct (mask_row _ _ _ (row_range m) data Tr row_range_all N3) as (M1 & M1').
    destruct (Hg (mc_row_min m) ltac:(auto)) as (Gr0 & Gr1). destruct (Hg (mc_col_min m) ltac:(auto)) as (Gc0 & Gc1).
    destruct (set_out_of_row (fun j => nth j (row_range m) 0) (scale_grid (mc_subpix m) (mc_row_min m)) (scale_grid (mc_subpix m) (mc_row_max m)) NaN (Some (scale_pair (mc_subpix m) (mc_row_source m))) data) as [d1|] eqn:E1; cbn [bind].
    - destruct (M1' _ eq_refl) as ((S0 & S1 & S2 & S3) & G1). clear M1'. pose proof (proj1 M1 (ex_intro _ d1 eq_refl)) as M1'. clear M1.
      destruct (mask_col _ _ _ (col_range m) d1 Tc col_range_all ltac:(congruence)) as (M2 & M2').
      destruct (set_out_of_col (fun j => nth j (col_range m) 0) (scale_grid (mc_subpix m) (mc_col_min m)) (scale_grid (mc_subpix m) (mc_col_max m)) NaN (Some (scale_pair (mc_subpix m) (mc_col_source m))) d1) as [d2|] eqn:E2; cbn [bind].
      + destruct (M2' _ eq_refl) as ((S0' & S1' & S2' & S3') & G2). clear M2'. pose proof (proj1 M2 (ex_intro _ d2 eq_refl)) as M2'. clear M2. split.
        * split; [discriminate|]. intros (r & c & Hr & Hc & Hout & [N|N]); exfalso.
          -- destruct (M1' r c ltac:(split; congruence) N). rewrite N0, N1 in *. lia.
          -- destruct (M2' r c ltac:(split; congruence) N). rewrite S0, S1, N0, N1 in *. lia.
        * intros cv Ecv. injection Ecv as <-. cbn [cv_disp_col cv_disp_row]. intros r c i j x di dj Hr Hc Hi Hj. unfold cost_at. cbn [cv_data].
          assert (Lr : (r < length (row_coords m))%nat) by (apply nth_error_Some; congruence).
          assert (Li : (i < length (col_range m))%nat) by (apply nth_error_Some; congruence).
          assert (Lj : (j < length (row_range m))%nat) by (apply nth_error_Some; congruence).
          rewrite nth4 by (repeat split; congruence || lia).
          assert (E0 : a4_get data r c i j = cost_for px_eqb pandora_cost zoomed m right dj (Z.to_nat (x - mc_row0 m)) c i).
          { rewrite G by (repeat split; congruence || lia). rewrite (nth_error_nth _ _ 0 Hj). unfold image_row. rewrite (nth_error_nth _ _ 0 Hr). reflexivity. }
          destruct (G1 r c i j ltac:(split; rewrite ?Gr0, ?Gr1; lia) Lj) as (A1 & A2). destruct (G2 r c i j ltac:(split; rewrite ?Gc0, ?Gc1; lia) Li) as (B1 & B2).
          rewrite (nth_error_nth _ _ 0 Hj) in A1, A2. rewrite (nth_error_nth _ _ 0 Hi) in B1, B2.
          assert (Dec : in_pixel_range m (mc_col_min m) (mc_col_max m) (mc_col_source m) r c di \/ ~ in_pixel_range m (mc_col_min m) (mc_col_max m) (mc_col_source m) r c di) by (unfold in_pixel_range; lia).
          split.
          -- intros (X & Y). rewrite (B1 Y), (A1 X), E0. reflexivity.
          -- intros X. destruct Dec as [Y|Y]; [rewrite (B1 Y); f_equal; apply A2; tauto | now rewrite (B2 Y)].
      + split; [|discriminate]. split; [intros _|reflexivity].
        destruct (existsb (fun r => existsb (fun c => ((length (row_coords m) <=? r)%nat || (length (col_coords m) <=? c)%nat) &&
            (negb (a2_get (mc_col_min m) r c =? fst (mc_col_source m)) || negb (a2_get (mc_col_max m) r c =? snd (mc_col_source m)))) (seq 0 (mc_ncol m))) (seq 0 (mc_nrow m))) eqn:Ex.
        * apply existsb_exists in Ex. destruct Ex as (r & Hr & Ex). apply existsb_exists in Ex. destruct Ex as (c & Hc & Ex). apply in_seq in Hr, Hc.
          apply andb_true_iff in Ex. destruct Ex as (X1 & X2). exists r, c. repeat (split; [lia|]). split.
          -- apply orb_true_iff in X1. rewrite !Nat.leb_le in X1. exact X1.
          -- right. unfold narrow. apply orb_true_iff in X2. rewrite !negb_true_iff, !Z.eqb_neq in X2. exact X2.
        * exfalso. assert (X : exists d', @None (arr4 ext) = Some d'); [|destruct X; discriminate]. apply M2. intros r c (I0 & I1) N.
          rewrite Gc0 in I0. rewrite Gc1 in I1. rewrite S0, S1, N0, N1.
          destruct (le_lt_dec (length (row_coords m)) r) as [L|L]; [|destruct (le_lt_dec (length (col_coords m)) c) as [L'|L']; [|lia]]; exfalso;
            (assert (T : false = true); [|discriminate]); rewrite <- Ex; apply existsb_exists; exists r; (split; [apply in_seq; lia|]); apply existsb_exists; exists c; (split; [apply in_seq; lia|]);
            apply andb_true_iff; rewrite !orb_true_iff, !Nat.leb_le, !negb_true_iff, !Z.eqb_neq; (split; [tauto|exact N]).
    - split; [|discriminate]. split; [intros _|reflexivity]. clear M1'.
      destruct (existsb (fun r => existsb (fun c => ((length (row_coords m) <=? r)%nat || (length (col_coords m) <=? c)%nat) &&
          (negb (a2_get (mc_row_min m) r c =? fst (mc_row_source m)) || negb (a2_get (mc_row_max m) r c =? snd (mc_row_source m)))) (seq 0 (mc_ncol m))) (seq 0 (mc_nrow m))) eqn:Ex.
      + apply existsb_exists in Ex. destruct Ex as (r & Hr & Ex). apply existsb_exists in Ex. destruct Ex as (c & Hc & Ex). apply in_seq in Hr, Hc.
        apply andb_true_iff in Ex. destruct Ex as (X1 & X2). exists r, c. repeat (split; [lia|]). split.
        * apply orb_true_iff in X1. rewrite !Nat.leb_le in X1. exact X1.
        * left. unfold narrow. apply orb_true_iff in X2. rewrite !negb_true_iff, !Z.eqb_neq in X2. exact X2.
      + exfalso. assert (X : exists d', @None (arr4 ext) = Some d'); [|destruct X; discriminate]. apply M1. intros r c (I0 & I1) N.
        rewrite Gr0 in I0. rewrite Gr1 in I1. rewrite N0, N1.
        destruct (le_lt_dec (length (row_coords m)) r) as [L|L]; [|destruct (le_lt_dec (length (col_coords m)) c) as [L'|L']; [|lia]]; exfalso;
          (assert (T : false = true); [|discriminate]); rewrite <- Ex; apply existsb_exists; exists r; (split; [apply in_seq; lia|]); apply existsb_exists; exists c; (split; [apply in_seq; lia|]);
          apply andb_true_iff; rewrite !orb_true_iff, !Nat.leb_le, !negb_true_iff, !Z.eqb_neq; (split; [tauto|exact N]).
  Qed.

  (** Intervals of the same width: with a step and two rows or columns, the volumes are computed only if the intervals do not change. *)
  Theorem grids_with_step : (2 <= mc_nrow m)%nat -> (2 <= mc_ncol m)%nat -> 2 <= mc_step_row m \/ 2 <= mc_step_col m ->
    (forall r c r' c', in2 (mc_row_min m) r c -> in2 (mc_row_min m) r' c' -> a2_get (mc_row_max m) r c - a2_get (mc_row_min m) r c = a2_get (mc_row_max m) r' c' - a2_get (mc_row_min m) r' c') ->
    (forall r c r' c', in2 (mc_col_min m) r c -> in2 (mc_col_min m) r' c' -> a2_get (mc_col_max m) r c - a2_get (mc_col_min m) r c = a2_get (mc_col_max m) r' c' - a2_get (mc_col_min m) r' c') ->
    (compute_cost_volumes px_eqb pandora_cost zoomed m right <> None <-> constant_ranges m).
  Proof.
    intros R2 C2 Hstep Wr Wc. split.
    - intros Hok. assert (wf' := wf). destruct wf' as (_ & _ & _ & Sr & Sc & _ & _ & Hg & Tr & Tc). pose proof (proj1 compute_cost_volumes_any) as Hn.
      assert (Hx : exists r c, (r < mc_nrow m)%nat /\ (c < mc_ncol m)%nat /\ (length (row_coords m) <= r \/ length (col_coords m) <= c)%nat).
      { destruct (row_coords_shape m right wf) as (st & Er & H1 & _). destruct (col_coords_shape m right wf) as (st' & Ec & H2 & _). rewrite Er, Ec.
        destruct Hstep as [Hs|Hs].
        - pose proof (zarange_shorter st (mc_row0 m) (mc_nrow m) (mc_step_row m) Hs H1 R2). exists (mc_nrow m - 1)%nat, 0%nat. lia.
        - pose proof (zarange_shorter st' (mc_col0 m) (mc_ncol m) (mc_step_col m) Hs H2 C2). exists 0%nat, (mc_ncol m - 1)%nat. lia. }
      destruct Hx as (r & c & Hr & Hc & Hout).
      destruct (Hg (mc_row_min m) ltac:(auto)) as (Gr0 & Gr1). destruct (Hg (mc_row_max m) ltac:(auto)) as (Gr0' & Gr1').
      destruct (Hg (mc_col_min m) ltac:(auto)) as (Gc0 & Gc1). destruct (Hg (mc_col_max m) ltac:(auto)) as (Gc0' & Gc1').
      assert (Nr : ~ narrow (mc_row_min m) (mc_row_max m) (mc_row_source m) r c) by (intros N; apply Hok, Hn; exists r, c; tauto).
      assert (Nc : ~ narrow (mc_col_min m) (mc_col_max m) (mc_col_source m) r c) by (intros N; apply Hok, Hn; exists r, c; tauto).
      unfold narrow in Nr, Nc. split.
      + intros r1 c1 I. destruct Tr as (T1 & _). pose proof (T1 _ _ I). pose proof (Wr r1 c1 r c I ltac:(split; congruence)). lia.
      + intros r1 c1 I. destruct Tc as (T1 & _). pose proof (T1 _ _ I). pose proof (Wc r1 c1 r c I ltac:(split; congruence)). lia.
    - intros Hc. destruct (compute_cost_volumes_const px_eqb pandora_cost zoomed m right wf Hc) as (cv & E & _). rewrite E. discriminate.
  Qed.
End P.
