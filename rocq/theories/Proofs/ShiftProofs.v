From Coq Require Import ZArith List Lia Bool Arith.
From Verif Require Import Base.Arr Base.ZRange Base.PyList Model.ImgShiftModel Spec.ShiftSpec Proofs.ChunkProofs.
Import ListNotations.
Open Scope Z_scope.

Lemma to_list2_ext {A} (a b : arr2 A) : a2_n0 a = a2_n0 b -> a2_n1 a = a2_n1 b ->
  (forall r c, (r < a2_n0 a)%nat -> (c < a2_n1 a)%nat -> a2_get a r c = a2_get b r c) ->
  to_list2 a = to_list2 b.
Proof.
  intros H0 H1 H. unfold to_list2. rewrite <- H0, <- H1.
  apply map_ext_in. intros r Hr. apply map_ext_in. intros c Hc. apply in_seq in Hr, Hc. apply H; lia.
Qed.

Lemma zoom_len (ny subpix ind : nat) : (1 <= ny)%nat -> (1 <= ind < subpix)%nat ->
  strided_len (zoom_rows ny subpix) ind subpix = (ny - 1)%nat /\
  ((ny * subpix - ind + subpix - 1) / subpix)%nat = ny.
Proof.
  intros Hn Hi. unfold strided_len, zoom_rows. split.
  - destruct ny as [|n]; [lia|]. simpl Nat.sub at 5.
    replace (S n * subpix - (subpix - 1))%nat with (n * subpix + 1)%nat by nia.
    destruct n as [|n].
    + replace (0 * subpix + 1 - ind)%nat with 0%nat by lia. apply Nat.div_small. lia.
    + replace (S (S n) - 1)%nat with (S n) by lia.
      replace (S n * subpix + 1 - ind + subpix - 1)%nat with ((subpix - ind) + S n * subpix)%nat by nia.
      rewrite Nat.div_add by lia. rewrite Nat.div_small by lia. lia.
  - replace (ny * subpix - ind + subpix - 1)%nat with ((subpix - ind - 1) + ny * subpix)%nat by nia.
    rewrite Nat.div_add by lia. rewrite Nat.div_small by lia. lia.
Qed.

Section S.
  Context {px : Type} (px_eqb : px -> px -> bool).
  Variables (interp : nat -> nat -> px) (img : image px) (subpix : nat).
  Hypothesis Hs : (1 <= subpix)%nat.
  Hypothesis Hny : (1 <= a2_n0 (im_data img))%nat.
  Let ny := a2_n0 (im_data img).
  Let nx := a2_n1 (im_data img).

  Lemma row_zoom_ok ind : (1 <= ind < subpix)%nat ->
    row_zoom_img interp img subpix ind =
    Some (mkImage (mkArr2 ny nx (fun r c => if (r <? ny - 1)%nat then interp (ind + r * subpix)%nat c else im_no_data img))
       (im_no_data img) None).
  Proof.
    intros Hi. unfold row_zoom_img. destruct (zoom_len ny subpix ind Hny Hi) as [E1 E2].
    fold ny nx. rewrite E1, E2. replace (S (ny - 1)) with ny by (unfold ny; lia).
    rewrite Nat.eqb_refl. reflexivity.
  Qed.

  Lemma map_opt_nth {A B} (f : A -> option B) l res : map_opt f l = Some res ->
    forall i, nth_error res i = match nth_error l i with Some a => f a | None => None end.
  Proof.
    revert res. induction l as [|a l IH]; simpl; intros res H i.
    - inversion H. destruct i; reflexivity.
    - destruct (f a) eqn:E; [|discriminate]. destruct (map_opt f l) eqn:E2; [|discriminate]. inversion H; subst.
      destruct i; simpl; auto.
  Qed.
  Lemma map_opt_some {A B} (f : A -> option B) l : (forall a, In a l -> exists b, f a = Some b) ->
    exists res, map_opt f l = Some res.
  Proof.
    induction l as [|a l IH]; intros H; simpl; eauto.
    destruct (H a) as [b ->]; [left; auto|]. destruct IH as [res ->]; eauto. intros; apply H; right; auto.
  Qed.

  Lemma shift_subpix_ok : exists imgs, shift_subpix_img interp img subpix = Some imgs /\
    nth_error imgs 0 = Some img /\
    (forall i, (1 <= i < subpix)%nat -> nth_error imgs i =
       Some (mkImage (mkArr2 ny nx (fun r c => if (r <? ny - 1)%nat then interp (i + r * subpix)%nat c else im_no_data img))
       (im_no_data img) None)).
  Proof.
    unfold shift_subpix_img.
    destruct (map_opt_some (row_zoom_img interp img subpix) (seq 1 (subpix - 1))) as [l El].
    { intros i Hi. apply in_seq in Hi. eexists. apply row_zoom_ok. lia. }
    rewrite El. exists (img :: l). repeat split.
    intros i Hi. destruct i as [|i]; [lia|]. simpl. rewrite (map_opt_nth _ _ _ El).
    rewrite (nth_error_nth' _ 0%nat) by (rewrite seq_length; lia). rewrite seq_nth by lia.
    apply row_zoom_ok. lia.
  Qed.

  Theorem right_for_disp_spec imgs d : shift_subpix_img interp img subpix = Some imgs ->
    exists data msk, right_for_disp px_eqb imgs subpix d = Some (data, msk) /\
      a2_n0 data = ny /\ a2_n1 data = nx /\ a2_n0 msk = ny /\ a2_n1 msk = nx /\
      (forall r c, (r < ny)%nat -> a2_get data r c = right_value interp img subpix (Z.of_nat r * Z.of_nat subpix + d) c) /\
      (forall r c, (r < ny)%nat -> a2_get msk r c = if px_eqb (right_value interp img subpix (Z.of_nat r * Z.of_nat subpix + d) c) (im_no_data img) then 1 else 0).
  Proof.
    intros H. destruct shift_subpix_ok as (imgs' & E & H0 & Hi). rewrite H in E. injection E as <-.
    set (s := Z.of_nat subpix). assert (Hs' : 0 < s) by (unfold s; lia).
    pose proof (Z.mod_pos_bound d s Hs') as Hm. pose proof (Z.div_mod d s ltac:(lia)) as Hdm.
    unfold right_for_disp. fold s.
    assert (V : exists im, nth_error imgs (Z.to_nat (d mod s)) = Some im /\ a2_n0 (im_data im) = ny /\ a2_n1 (im_data im) = nx /\
       im_no_data im = im_no_data img /\
       forall r c, (r < ny)%nat -> a2_get (fst (shift_disp_row_img px_eqb im (d / s))) r c =
        right_value interp img subpix (Z.of_nat r * s + d) c).
    { destruct (Z.eq_dec (d mod s) 0) as [Ez|Ez].
      - rewrite Ez. exists img. repeat split; auto. intros r c Hr. unfold shift_disp_row_img, right_value. simpl. fold ny. fold s.
        assert (Ed : d = s * (d / s)) by lia. remember (d / s) as q. subst d. clear Hdm Ez Hm.
        replace (Z.of_nat r * s + s * q) with ((Z.of_nat r + q) * s) by ring.
        rewrite Z.mod_mul, Z.div_mul by lia. simpl.
        replace (0 <=? (Z.of_nat r + q) * s) with (0 <=? Z.of_nat r + q).
        2:{ apply eq_true_iff_eq. rewrite !Z.leb_le. split; intros; nia. }
        replace ((Z.of_nat r + q) * s <=? (Z.of_nat ny - 1) * s) with (Z.of_nat r + q <? Z.of_nat ny).
        2:{ apply eq_true_iff_eq. rewrite Z.leb_le, Z.ltb_lt. split; intros; nia. }
        reflexivity.
      - eexists. split. apply Hi. unfold s in *. lia.
        repeat split; auto. intros r c Hr. unfold shift_disp_row_img, right_value. simpl. fold ny. fold s.
        set (f := d mod s) in *. set (q := d / s) in *.
        replace (Z.of_nat r * s + d) with (f + (Z.of_nat r + q) * s) by (rewrite Hdm; ring).
        rewrite Z.mod_add by lia. rewrite (Z.mod_small f) by lia.
        replace (f =? 0) with false by (symmetry; apply Z.eqb_neq; auto).
        replace (0 <=? f + (Z.of_nat r + q) * s) with (0 <=? Z.of_nat r + q).
        2:{ apply eq_true_iff_eq. rewrite !Z.leb_le. split; intros; nia. }
        destruct (Z.leb_spec 0 (Z.of_nat r + q)) as [Hp|Hp]; simpl; auto.
        destruct (Z.ltb_spec (Z.of_nat r + q) (Z.of_nat ny)) as [Hq|Hq].
        + destruct (Nat.ltb_spec (Z.to_nat (Z.of_nat r + q)) (ny - 1)) as [Hl|Hl].
          * replace (f + (Z.of_nat r + q) * s <=? (Z.of_nat ny - 1) * s) with true.
            2:{ symmetry. apply Z.leb_le. nia. }
            f_equal. unfold s in *. nia.
          * replace (f + (Z.of_nat r + q) * s <=? (Z.of_nat ny - 1) * s) with false; auto.
            symmetry. apply Z.leb_gt. assert (Z.of_nat r + q = Z.of_nat ny - 1) by lia. rewrite H1. lia.
        + replace (f + (Z.of_nat r + q) * s <=? (Z.of_nat ny - 1) * s) with false; auto.
          symmetry. apply Z.leb_gt. nia. }
    destruct V as (im & Eim & N0 & N1 & Nd & V). rewrite Eim.
    eexists _, _. split; [unfold shift_disp_row_img; reflexivity|]. simpl. repeat split; auto.
    intros r c Hr. specialize (V r c Hr). unfold shift_disp_row_img in V. simpl in V. rewrite V, Nd. reflexivity.
  Qed.

  (** The same, as lists of lists. *)
  Theorem right_for_disp_lists imgs d : shift_subpix_img interp img subpix = Some imgs ->
    exists data msk, right_for_disp px_eqb imgs subpix d = Some (data, msk) /\
      to_list2 data = to_list2 (right_moved interp img subpix d) /\
      to_list2 msk = to_list2 (moved_mask px_eqb interp img subpix d).
  Proof.
    intros H. destruct (right_for_disp_spec imgs d H) as (data & msk & E & A0 & A1 & B0 & B1 & HA & HB).
    exists data, msk. split; auto. split; apply to_list2_ext; simpl; auto; intros r c Hr Hc.
    - apply HA. congruence.
    - apply HB. congruence.
  Qed.
End S.
