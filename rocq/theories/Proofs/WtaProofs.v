From Coq Require Import ZArith List Lia Bool Arith.
From Verif Require Import Base.Ext Base.PyList Model.DisparityModel Spec.WtaSpec Proofs.ChunkProofs.
Import ListNotations.

(** *** Order *)
Lemma good_refl t a : a <> NaN -> at_least_as_good t a a.
Proof. destruct t; apply ext_leb_refl. Qed.
Lemma good_trans t a b c : at_least_as_good t a b -> at_least_as_good t b c -> at_least_as_good t a c.
Proof. destruct t; simpl; intros; eapply ext_leb_trans; eauto. Qed.
Lemma good_antisym t a b : at_least_as_good t a b -> at_least_as_good t b a -> a = b.
Proof. destruct t; simpl; intros; apply ext_leb_antisym; auto. Qed.
Lemma good_worst t a : a <> NaN -> at_least_as_good t a (worst t).
Proof. destruct t, a; simpl; congruence. Qed.
Lemma worst_notnan t : worst t <> NaN.
Proof. destruct t; simpl; congruence. Qed.

Lemma np_pick_spec t a b : a <> NaN -> b <> NaN ->
  np_pick t a b <> NaN /\ (np_pick t a b = a \/ np_pick t a b = b) /\
  at_least_as_good t (np_pick t a b) a /\ at_least_as_good t (np_pick t a b) b.
Proof.
  intros Ha Hb.
  assert (E : np_pick t a b = match t with
            | MeasureMax => if ext_ltb a b then b else a
            | MeasureMin => if ext_ltb b a then b else a end)
    by (destruct a, b; try congruence; reflexivity).
  rewrite E. clear E. destruct t.
  - rewrite ext_ltb_leb by auto. destruct (ext_leb a b) eqn:E; simpl.
    + repeat split; auto. apply ext_leb_refl; auto.
    + repeat split; auto.
      * destruct (ext_leb_total a b); congruence.
      * apply ext_leb_refl; auto.
  - rewrite ext_ltb_leb by auto. destruct (ext_leb b a) eqn:E; simpl.
    + repeat split; auto. apply ext_leb_refl; auto.
    + repeat split; auto.
      * destruct (ext_leb_total a b); congruence.
      * apply ext_leb_refl; auto.
Qed.

Lemma fold_pick_spec t l a : a <> NaN -> (forall x, In x l -> x <> NaN) ->
  let m := fold_left (np_pick t) l a in
  m <> NaN /\ In m (a :: l) /\ forall x, In x (a :: l) -> at_least_as_good t m x.
Proof.
  revert a. induction l as [|b l IH]; intros a Ha Hl; simpl.
  - split; [auto|]. split; [auto|]. intros x [<-|[]]. apply good_refl; auto.
  - assert (Hb : b <> NaN) by (apply Hl; left; auto).
    destruct (np_pick_spec t a b Ha Hb) as (Hn & Hor & Hga & Hgb).
    destruct (IH (np_pick t a b) Hn) as (H1 & H2 & H3).
    { intros. apply Hl. right; auto. }
    split; [auto|]. split.
    + destruct H2 as [E|H2]; [|right; right; auto].
      rewrite <- E. destruct Hor as [E'|E']; rewrite E'; auto.
    + intros x [<-|[<-|Hx]].
      * eapply good_trans; [apply H3; left; reflexivity|auto].
      * eapply good_trans; [apply H3; left; reflexivity|auto].
      * apply H3. right; auto.
Qed.

Lemma np_ext_spec t l : l <> [] -> (forall x, In x l -> x <> NaN) ->
  exists m, np_ext t l = Some m /\ m <> NaN /\ In m l /\ forall x, In x l -> at_least_as_good t m x.
Proof.
  destruct l as [|a l]; [congruence|]. intros _ H. simpl.
  destruct (fold_pick_spec t l a) as (H1 & H2 & H3).
  - apply H. left; auto.
  - intros. apply H. right; auto.
  - eexists. split; [reflexivity|]. auto.
Qed.

Lemma np_beats_strict t x best : x <> NaN -> best <> NaN ->
  np_beats t x best = true -> at_least_as_good t x best /\ ~ at_least_as_good t best x.
Proof.
  intros Hx Hb E. unfold np_beats in E. destruct t; simpl.
  - assert (E' : ext_ltb x best = true) by (destruct best, x; try congruence; auto).
    rewrite ext_ltb_leb in E' by auto. apply negb_true_iff in E'.
    destruct (ext_leb_total x best); auto; try congruence. split; auto; congruence.
  - assert (E' : ext_ltb best x = true) by (destruct best, x; try congruence; auto).
    rewrite ext_ltb_leb in E' by auto. apply negb_true_iff in E'.
    destruct (ext_leb_total x best); auto; try congruence. split; auto; congruence.
Qed.
Lemma np_beats_false t x best : x <> NaN -> best <> NaN ->
  np_beats t x best = false -> at_least_as_good t best x.
Proof.
  intros Hx Hb E. unfold np_beats in E. destruct t; simpl.
  - assert (E' : ext_ltb x best = false) by (destruct best, x; try congruence; auto).
    rewrite ext_ltb_leb in E' by auto. apply negb_false_iff in E'. auto.
  - assert (E' : ext_ltb best x = false) by (destruct best, x; try congruence; auto).
    rewrite ext_ltb_leb in E' by auto. apply negb_false_iff in E'. auto.
Qed.

Lemma np_arg_from_spec t l i best besti pre :
  (forall x, In x (pre ++ l) -> x <> NaN) ->
  length pre = i -> nth_error pre besti = Some best ->
  (forall x, In x pre -> at_least_as_good t best x) ->
  (forall k, k < besti -> nth_error pre k <> Some best) ->
  exists m, nth_error (pre ++ l) (np_arg_from t i best besti l) = Some m /\
     (forall x, In x (pre ++ l) -> at_least_as_good t m x) /\
     (forall k, k < np_arg_from t i best besti l -> nth_error (pre ++ l) k <> Some m).
Proof.
  revert i best besti pre. induction l as [|x l IH]; intros i best besti pre Hn Hi Hb Hg Hf; simpl.
  - rewrite app_nil_r. eauto.
  - assert (Hbn : best <> NaN).
    { apply Hn. apply in_or_app. left. eapply nth_error_In; eauto. }
    assert (Hxn : x <> NaN) by (apply Hn; apply in_or_app; right; left; auto).
    assert (Hsplit : pre ++ x :: l = (pre ++ [x]) ++ l) by (rewrite <- app_assoc; reflexivity).
    rewrite Hsplit in *.
    destruct (np_beats t x best) eqn:E.
    + destruct (np_beats_strict t x best Hxn Hbn E) as [Hgx Hngx].
      apply IH; auto.
      * rewrite app_length; simpl; lia.
      * subst i. rewrite nth_error_app2, Nat.sub_diag by lia. reflexivity.
      * intros y Hy. apply in_app_or in Hy. destruct Hy as [Hy|[<-|[]]].
        -- eapply good_trans; eauto.
        -- apply good_refl; auto.
      * intros k Hk. rewrite nth_error_app1 by lia. intros Ek.
        apply Hngx. apply Hg. eapply nth_error_In; eauto.
    + assert (besti < length pre) by (apply nth_error_Some; congruence).
      apply IH; auto.
      * rewrite app_length; simpl; lia.
      * rewrite nth_error_app1; auto.
      * intros y Hy. apply in_app_or in Hy. destruct Hy as [Hy|[<-|[]]]; auto.
        apply np_beats_false; auto.
      * intros k Hk. rewrite nth_error_app1 by lia. auto.
Qed.

Lemma np_arg_spec t l : l <> [] -> (forall x, In x l -> x <> NaN) ->
  exists i m, np_arg t l = Some i /\ nth_error l i = Some m /\
     (forall x, In x l -> at_least_as_good t m x) /\
     (forall k, k < i -> nth_error l k <> Some m).
Proof.
  destruct l as [|a l]; [congruence|]. intros _ H.
  destruct (np_arg_from_spec t l 1 a 0 [a]) as (m & H1 & H2 & H3); auto.
  - intros x [<-|[]]. apply good_refl. apply H. left; auto.
  - intros k Hk. lia.
  - exists (np_arg_from t 1 a 0 l), m. auto.
Qed.

(** *** One pixel *)
Lemma nth2_map {A B} (g : A -> B) m r c :
  nth2 (map (map g) m) r c = option_map g (nth2 m r c).
Proof.
  unfold nth2. rewrite nth_error_map. destruct (nth_error m r); simpl; auto.
  apply nth_error_map.
Qed.

Lemma nth2_In {A} (m : list (list A)) r c x : nth2 m r c = Some x -> exists row, In row m /\ In x row.
Proof.
  unfold nth2. destruct (nth_error m r) eqn:E; try discriminate. intros H.
  exists l. split; eapply nth_error_In; eauto.
Qed.

Lemma rect_nth2 {A} nr nc (m : list (list A)) r c :
  rect nr nc m -> (r < nr /\ c < nc <-> exists x, nth2 m r c = Some x).
Proof.
  intros [H1 H2]. unfold nth2. split.
  - intros [Hr Hc]. destruct (nth_error m r) as [row|] eqn:E.
    + rewrite Forall_forall in H2. assert (length row = nc) by (apply H2; eapply nth_error_In; eauto).
      destruct (nth_error row c) eqn:E2; eauto. apply nth_error_None in E2. lia.
    + apply nth_error_None in E. lia.
  - intros [x Hx]. destruct (nth_error m r) as [row|] eqn:E; try discriminate.
    rewrite Forall_forall in H2. assert (length row = nc) by (apply H2; eapply nth_error_In; eauto).
    assert (nth_error m r <> None) by congruence. assert (nth_error row c <> None) by congruence.
    apply nth_error_Some in H0. apply nth_error_Some in H3. lia.
Qed.

Lemma nth2_lt {A} nr nc (m : list (list A)) r c x : rect nr nc m -> nth2 m r c = Some x -> r < nr /\ c < nc.
Proof. intros H E. apply (rect_nth2 nr nc m r c H). eauto. Qed.
Lemma nth2_some {A} nr nc (m : list (list A)) r c : rect nr nc m -> r < nr -> c < nc -> exists x, nth2 m r c = Some x.
Proof. intros H Hr Hc. apply (rect_nth2 nr nc m r c H). auto. Qed.

Lemma rect_map {A B} (g : A -> B) nr nc m : rect nr nc m -> rect nr nc (map (map g) m).
Proof.
  intros [H1 H2]. split. rewrite map_length; auto.
  rewrite Forall_forall in *. intros x Hx. apply in_map_iff in Hx. destruct Hx as (y & <- & Hy).
  rewrite map_length. auto.
Qed.

Section Pixel.
  Variables (t : measure) (ndc ndr : nat) (F : list (list ext)).
  Hypothesis HF : rect ndc ndr F.
  Hypothesis Hndc : 0 < ndc.
  Hypothesis Hndr : 0 < ndr.
  Hypothesis Hn : forall dc dr x, nth2 F dc dr = Some x -> x <> NaN.

  Lemma column_spec dr : dr < ndr ->
    exists col, map_opt (fun line => nth_error line dr) F = Some col /\
      length col = ndc /\ (forall dc, nth_error col dc = nth2 F dc dr).
  Proof.
    intros Hdr. destruct HF as [H1 H2]. rewrite Forall_forall in H2.
    destruct (map_opt_total (fun line => nth_error line dr) F) as [col Hc].
    { intros line Hl. apply nth_error_Some. rewrite H2; auto. }
    exists col. split; auto. split.
    - rewrite (map_opt_length _ _ _ Hc). auto.
    - intros dc. rewrite (map_opt_nth _ _ _ dc Hc). unfold nth2. reflexivity.
  Qed.

  Lemma reduce2_spec :
    exists bc, reduce_axis2 t ndr F = Some bc /\ length bc = ndr /\
      forall dr, dr < ndr -> exists m, nth_error bc dr = Some m /\ m <> NaN /\
        (exists dc, nth2 F dc dr = Some m) /\
        (forall dc x, nth2 F dc dr = Some x -> at_least_as_good t m x).
  Proof.
    assert (Hpx : forall dr, dr < ndr -> exists m,
      match map_opt (fun line => nth_error line dr) F with
      | Some column => np_ext t column | None => None end = Some m /\ m <> NaN /\
        (exists dc, nth2 F dc dr = Some m) /\
        (forall dc x, nth2 F dc dr = Some x -> at_least_as_good t m x)).
    { intros dr Hdr. destruct (column_spec dr Hdr) as (col & Hc & Hl & Hnth). rewrite Hc.
      destruct (np_ext_spec t col) as (m & Hm & Hmn & Hin & Hbest).
      - intros ->. simpl in Hl. lia.
      - intros x Hx. apply In_nth_error in Hx. destruct Hx as [dc Hx]. rewrite Hnth in Hx. eauto.
      - exists m. split; auto. split; auto. split.
        + apply In_nth_error in Hin. destruct Hin as [dc Hd]. exists dc. rewrite <- Hnth. auto.
        + intros dc x Hx. apply Hbest. eapply nth_error_In. rewrite Hnth. eauto. }
    unfold reduce_axis2.
    match goal with |- context [map_opt ?g _] => set (f := g) in * end.
    destruct (map_opt_total f (seq 0 ndr)) as [bc Hbc].
    { intros a Ha. apply in_seq in Ha. destruct (Hpx a) as (m & Hm & _); [lia|]. unfold f. congruence. }
    exists bc. split; auto. split.
    - rewrite (map_opt_length _ _ _ Hbc). apply seq_length.
    - intros dr Hdr. destruct (Hpx dr Hdr) as (m & Hm & Hrest). exists m. split; auto.
      rewrite (map_opt_nth _ _ _ dr Hbc). 
      assert (E : nth_error (seq 0 ndr) dr = Some dr).
      { rewrite (nth_error_nth' _ 0) by (rewrite seq_length; auto). rewrite seq_nth; auto. }
      rewrite E. unfold f. auto.
  Qed.

  Lemma reduce3_spec :
    exists bc, reduce_axis3 t F = Some bc /\ length bc = ndc /\
      forall dc, dc < ndc -> exists m, nth_error bc dc = Some m /\ m <> NaN /\
        (exists dr, nth2 F dc dr = Some m) /\
        (forall dr x, nth2 F dc dr = Some x -> at_least_as_good t m x).
  Proof.
    assert (Hpx : forall dc line, nth_error F dc = Some line -> exists m,
      np_ext t line = Some m /\ m <> NaN /\
        (exists dr, nth2 F dc dr = Some m) /\
        (forall dr x, nth2 F dc dr = Some x -> at_least_as_good t m x)).
    { intros dc line Hline. unfold nth2 in *.
      assert (Hl : length line = ndr).
      { destruct HF as [H1 H2]. rewrite Forall_forall in H2. apply H2. eapply nth_error_In; eauto. }
      destruct (np_ext_spec t line) as (m & Hm & Hmn & Hin & Hbest).
      - intros ->. simpl in Hl. lia.
      - intros x Hx. apply In_nth_error in Hx. destruct Hx as [dr Hx].
        apply (Hn dc dr). rewrite Hline. auto.
      - exists m. rewrite Hline. split; auto. split; auto. split.
        + apply In_nth_error in Hin. auto.
        + intros dr x Hx. apply Hbest. eapply nth_error_In; eauto. }
    unfold reduce_axis3.
    destruct (map_opt_total (np_ext t) F) as [bc Hbc].
    { intros line Hline. apply In_nth_error in Hline. destruct Hline as [dc Hd].
      destruct (Hpx _ _ Hd) as (m & Hm & _). congruence. }
    destruct HF as [H1 H2].
    exists bc. split; auto. split.
    - rewrite (map_opt_length _ _ _ Hbc). auto.
    - intros dc Hdc. destruct (nth_error F dc) as [line|] eqn:Hline.
      + destruct (Hpx _ _ Hline) as (m & Hm & Hrest). exists m. split; auto.
        rewrite (map_opt_nth _ _ _ dc Hbc), Hline. auto.
      + apply nth_error_None in Hline. lia.
  Qed.

  (** Best over the whole plane, in two stages. *)
  Definition plane_best (m : ext) : Prop :=
    (exists dc dr, nth2 F dc dr = Some m) /\
    (forall dc dr x, nth2 F dc dr = Some x -> at_least_as_good t m x).

  Lemma row_arg_spec :
    exists bc i m, reduce_axis2 t ndr F = Some bc /\ np_arg t bc = Some i /\ i < ndr /\ m <> NaN /\
      plane_best m /\ (exists dc, nth2 F dc i = Some m) /\
      (forall k dc, k < i -> nth2 F dc k <> Some m).
  Proof.
    destruct reduce2_spec as (bc & Hbc & Hl & Hspec).
    assert (Hne : bc <> []) by (intros ->; simpl in Hl; lia).
    assert (Hnan : forall x, In x bc -> x <> NaN).
    { intros x Hx. apply In_nth_error in Hx. destruct Hx as [dr Hx].
      assert (dr < ndr). { rewrite <- Hl. apply nth_error_Some. congruence. }
      destruct (Hspec dr H) as (m & Hm & Hmn & _). congruence. }
    destruct (np_arg_spec t bc Hne Hnan) as (i & m & Hi & Hm & Hbest & Hfirst).
    assert (Hilt : i < ndr). { rewrite <- Hl. apply nth_error_Some. congruence. }
    destruct (Hspec i Hilt) as (m' & Hm' & Hmn & (dc & Hdc) & Hg).
    rewrite Hm in Hm'. injection Hm' as <-.
    exists bc, i, m. repeat (split; [solve [eauto]|]). split; [|split; [eauto|]].
    - split; eauto. intros dc' dr' x Hx.
      assert (Hdr' : dr' < ndr) by (eapply nth2_lt in Hx; eauto; lia).
      destruct (Hspec dr' Hdr') as (m2 & Hm2 & _ & _ & Hg2).
      eapply good_trans; [apply Hbest; eapply nth_error_In; eauto|eauto].
    - intros k dc' Hk Hx. assert (Hkl : k < ndr) by lia.
      destruct (Hspec k Hkl) as (m2 & Hm2 & _ & _ & Hg2).
      apply (Hfirst k Hk). rewrite Hm2. f_equal. eapply good_antisym; eauto.
      apply Hbest. eapply nth_error_In; eauto.
  Qed.

  Lemma col_arg_spec :
    exists bc i m, reduce_axis3 t F = Some bc /\ np_arg t bc = Some i /\ np_ext t bc = Some m /\ i < ndc /\ m <> NaN /\
      plane_best m /\ (exists dr, nth2 F i dr = Some m) /\
      (forall k dr, k < i -> nth2 F k dr <> Some m).
  Proof.
    destruct reduce3_spec as (bc & Hbc & Hl & Hspec).
    assert (Hne : bc <> []) by (intros ->; simpl in Hl; lia).
    assert (Hnan : forall x, In x bc -> x <> NaN).
    { intros x Hx. apply In_nth_error in Hx. destruct Hx as [dr Hx].
      assert (dr < ndc). { rewrite <- Hl. apply nth_error_Some. congruence. }
      destruct (Hspec dr H) as (m & Hm & Hmn & _). congruence. }
    destruct (np_arg_spec t bc Hne Hnan) as (i & m & Hi & Hm & Hbest & Hfirst).
    assert (Hilt : i < ndc). { rewrite <- Hl. apply nth_error_Some. congruence. }
    destruct (Hspec i Hilt) as (m' & Hm' & Hmn & (dr & Hdr) & Hg).
    rewrite Hm in Hm'. injection Hm' as <-.
    destruct (np_ext_spec t bc Hne Hnan) as (m2 & Hm2 & _ & Hin2 & Hbest2).
    assert (m2 = m).
    { eapply good_antisym; eauto. apply Hbest2. eapply nth_error_In; eauto. }
    subst m2.
    exists bc, i, m. repeat (split; [solve [eauto]|]). split; [|split; [eauto|]].
    - split; eauto. intros dc' dr' x Hx.
      assert (Hdc' : dc' < ndc) by (eapply nth2_lt in Hx; eauto; lia).
      destruct (Hspec dc' Hdc') as (m2 & Hm2' & _ & _ & Hg2).
      eapply good_trans; [apply Hbest; eapply nth_error_In; eauto|eauto].
    - intros k dr' Hk Hx. assert (Hkl : k < ndc) by lia.
      destruct (Hspec k Hkl) as (m2 & Hm2' & _ & _ & Hg2).
      apply (Hfirst k Hk). rewrite Hm2'. f_equal. eapply good_antisym; eauto.
      apply Hbest. eapply nth_error_In; eauto.
  Qed.

  Lemma plane_best_unique m m' : plane_best m -> plane_best m' -> m = m'.
  Proof.
    intros ((dc & dr & E) & H) ((dc' & dr' & E') & H').
    eapply good_antisym; eauto.
  Qed.
End Pixel.

(** *** The user range *)
Lemma user_slice_eq {A} low high (l : list A) :
  user_slice low high (length l) l = slice low (length l - high) l.
Proof.
  unfold user_slice, py_slice, py_index, slice. 
  replace (Z.of_nat low <? 0)%Z with false by (symmetry; apply Z.ltb_ge; lia).
  destruct (high =? 0) eqn:E.
  - apply Nat.eqb_eq in E. subst. rewrite Z.opp_involutive.
    replace (Z.of_nat (length l) <? 0)%Z with false by (symmetry; apply Z.ltb_ge; lia).
    rewrite Z.min_id, Nat2Z.id.
    destruct (le_lt_dec low (length l)).
    + rewrite Z.min_l by lia. rewrite Nat2Z.id, Nat.sub_0_r. reflexivity.
    + rewrite Z.min_r by lia. rewrite Nat2Z.id.
      rewrite !(skipn_all2 l) by lia. rewrite !firstn_nil. reflexivity.
  - apply Nat.eqb_neq in E.
    replace (- Z.of_nat high <? 0)%Z with true by (symmetry; apply Z.ltb_lt; lia).
    replace (Z.to_nat (Z.max 0 (- Z.of_nat high + Z.of_nat (length l)))) with (length l - high) by lia.
    destruct (le_lt_dec low (length l)).
    + rewrite Z.min_l by lia. rewrite Nat2Z.id. reflexivity.
    + rewrite Z.min_r by lia. rewrite Nat2Z.id.
      rewrite !(skipn_all2 l) by lia. rewrite !firstn_nil. reflexivity.
Qed.

Lemma nth_error_skipn' {A} (l : list A) s i : nth_error (skipn s l) i = nth_error l (s + i).
Proof.
  revert l. induction s; intros l; simpl; auto. destruct l; simpl.
  - destruct i; reflexivity.
  - apply IHs.
Qed.
Lemma nth_error_firstn' {A} (l : list A) n i : nth_error (firstn n l) i = if i <? n then nth_error l i else None.
Proof.
  revert l i. induction n; intros l i; simpl.
  - destruct i; reflexivity.
  - destruct l; simpl. { destruct i; simpl; auto. destruct (S i <? S n); auto. }
    destruct i; simpl; auto. rewrite IHn. reflexivity.
Qed.
Lemma slice_nth {A} s e (l : list A) i : nth_error (slice s e l) i = if s + i <? e then nth_error l (s + i) else None.
Proof.
  unfold slice. rewrite nth_error_firstn', nth_error_skipn'.
  destruct (Nat.ltb_spec i (e - s)), (Nat.ltb_spec (s + i) e); auto; lia.
Qed.
Lemma slice_length' {A} s e (l : list A) : length (slice s e l) = min (e - s) (length l - s).
Proof. unfold slice. rewrite firstn_length, skipn_length. lia. Qed.
Lemma slice_full {A} (l : list A) : slice 0 (length l) l = l.
Proof. unfold slice. simpl. rewrite Nat.sub_0_r. apply firstn_all. Qed.

(** Uniform view of [cost_volumes_user]. *)
Definition user_l cv := let '(l,_,_,_) := margin_samples cv in l.
Definition user_u cv := let '(_,u,_,_) := margin_samples cv in u.
Definition user_r cv := let '(_,_,r,_) := margin_samples cv in r.
Definition user_d cv := let '(_,_,_,d) := margin_samples cv in d.
Definition plane_user cv (p : list (list ext)) :=
  map (slice (user_u cv) (length (cv_disp_row cv) - user_d cv))
      (slice (user_l cv) (length (cv_disp_col cv) - user_r cv) p).

Lemma user_view cv : wf_cv cv ->
  cv_disp_col (cost_volumes_user cv) = slice (user_l cv) (length (cv_disp_col cv) - user_r cv) (cv_disp_col cv) /\
  cv_disp_row (cost_volumes_user cv) = slice (user_u cv) (length (cv_disp_row cv) - user_d cv) (cv_disp_row cv) /\
  (forall r c, nth2 (cv_data (cost_volumes_user cv)) r c = option_map (plane_user cv) (nth2 (cv_data cv) r c)) /\
  rect (cv_nrow cv) (cv_ncol cv) (cv_data (cost_volumes_user cv)).
Proof.
  intros (Hr & Hp & _).
  assert (Hfull : user_l cv = 0 -> user_u cv = 0 -> user_r cv = 0 -> user_d cv = 0 ->
     forall r c, nth2 (cv_data cv) r c = option_map (plane_user cv) (nth2 (cv_data cv) r c)).
  { intros El Eu Er Ed r c. destruct (nth2 (cv_data cv) r c) as [p|] eqn:E; simpl; auto.
    f_equal. unfold plane_user. rewrite El, Eu, Er, Ed, !Nat.sub_0_r.
    destruct (Hp _ _ _ E) as [H1 H2]. rewrite <- H1 at 1. rewrite slice_full.
    symmetry. clear H1 E. induction p as [|line p IH]; simpl; auto.
    inversion H2; subst. rewrite IH by auto. f_equal. rewrite <- H1. apply slice_full. }
  unfold cost_volumes_user.
  destruct (cv_margins cv) as [m|] eqn:Em.
  - assert (El : user_l cv = m_left m * cv_subpix cv) by (unfold user_l, margin_samples; rewrite Em; auto).
    assert (Eu : user_u cv = m_up m * cv_subpix cv) by (unfold user_u, margin_samples; rewrite Em; auto).
    assert (Er : user_r cv = m_right m * cv_subpix cv) by (unfold user_r, margin_samples; rewrite Em; auto).
    assert (Ed : user_d cv = m_down m * cv_subpix cv) by (unfold user_d, margin_samples; rewrite Em; auto).
    unfold margins_null. destruct ((m_left m =? 0) && (m_up m =? 0) && (m_right m =? 0) && (m_down m =? 0)) eqn:E.
    + apply andb_prop in E. destruct E as [E E4]. apply andb_prop in E. destruct E as [E E3].
      apply andb_prop in E. destruct E as [E1 E2].
      apply Nat.eqb_eq in E1, E2, E3, E4. rewrite E1 in El. rewrite E2 in Eu. rewrite E3 in Er. rewrite E4 in Ed.
      simpl in *. rewrite El, Eu, Er, Ed, !Nat.sub_0_r, !slice_full. auto.
    + cbn [cv_disp_col cv_disp_row cv_data]. rewrite !user_slice_eq, <- El, <- Eu, <- Er, <- Ed.
      repeat (split; [reflexivity|]). split; [|apply rect_map; auto].
      intros r c. rewrite nth2_map. destruct (nth2 (cv_data cv) r c) as [p|] eqn:Ep; simpl; auto.
      f_equal. destruct (Hp _ _ _ Ep) as [H1 H2]. unfold plane_user.
      rewrite <- H1, user_slice_eq.
      apply map_ext_in. intros line Hline.
      rewrite Forall_forall in H2. rewrite <- (H2 line).
      * apply user_slice_eq.
      * unfold slice in Hline. rewrite <- (firstn_skipn (user_l cv) p).
        apply in_or_app. right.
        rewrite <- (firstn_skipn (length p - user_r cv - user_l cv) (skipn (user_l cv) p)).
        apply in_or_app. left. auto.
  - assert (El : user_l cv = 0) by (unfold user_l, margin_samples; rewrite Em; auto).
    assert (Eu : user_u cv = 0) by (unfold user_u, margin_samples; rewrite Em; auto).
    assert (Er : user_r cv = 0) by (unfold user_r, margin_samples; rewrite Em; auto).
    assert (Ed : user_d cv = 0) by (unfold user_d, margin_samples; rewrite Em; auto).
    rewrite El, Eu, Er, Ed, !Nat.sub_0_r, !slice_full. auto.
Qed.

Lemma plane_user_nth cv p dc dr :
  nth2 (plane_user cv p) dc dr =
  if (user_l cv + dc <? length (cv_disp_col cv) - user_r cv) && (user_u cv + dr <? length (cv_disp_row cv) - user_d cv)
  then nth2 p (user_l cv + dc) (user_u cv + dr) else None.
Proof.
  unfold plane_user, nth2. rewrite nth_error_map, slice_nth.
  destruct (user_l cv + dc <? length (cv_disp_col cv) - user_r cv); simpl; auto.
  destruct (nth_error p (user_l cv + dc)); simpl.
  - apply slice_nth.
  - destruct (_ <? _); auto.
Qed.

Lemma plane_user_rect cv p : rect (length (cv_disp_col cv)) (length (cv_disp_row cv)) p ->
  rect (length (cv_disp_col cv) - user_r cv - user_l cv) (length (cv_disp_row cv) - user_d cv - user_u cv) (plane_user cv p).
Proof.
  intros [H1 H2]. unfold plane_user. split.
  - rewrite map_length, slice_length'. lia.
  - rewrite Forall_forall in *. intros x Hx. apply in_map_iff in Hx. destruct Hx as (y & <- & Hy).
    rewrite slice_length'. rewrite (H2 y). lia.
    unfold slice in Hy. rewrite <- (firstn_skipn (user_l cv) p). apply in_or_app. right.
    rewrite <- (firstn_skipn (length (cv_disp_col cv) - user_r cv - user_l cv) (skipn (user_l cv) p)).
    apply in_or_app. auto.
Qed.

Lemma user_col_eq cv dc : user_col cv dc <-> user_l cv <= dc < length (cv_disp_col cv) - user_r cv.
Proof. unfold user_col, user_l, user_r. destruct (margin_samples cv) as [[[? ?] ?] ?]. tauto. Qed.
Lemma user_row_eq cv dr : user_row cv dr <-> user_u cv <= dr < length (cv_disp_row cv) - user_d cv.
Proof. unfold user_row, user_u, user_d. destruct (margin_samples cv) as [[[? ?] ?] ?]. tauto. Qed.

(** *** Composition *)
Lemma map_opt_map_opt_nth {A B} (f : A -> option B) (m : list (list A)) res r c :
  map_opt (map_opt f) m = Some res ->
  nth2 res r c = match nth2 m r c with Some a => f a | None => None end.
Proof.
  intros H. unfold nth2. rewrite (map_opt_nth _ _ _ r H).
  destruct (nth_error m r) as [row|] eqn:E; auto.
  destruct (map_opt f row) as [rr|] eqn:E2.
  - apply (map_opt_nth _ _ _ c E2).
  - exfalso. pose proof (map_opt_nth _ _ _ r H) as H2. rewrite E, E2 in H2.
    pose proof (map_opt_length _ _ _ H). apply nth_error_None in H2.
    assert (nth_error m r <> None) by congruence. apply nth_error_Some in H1. lia.
Qed.

Lemma map_opt2_total {A B} (f : A -> option B) nr nc (m : list (list A)) :
  rect nr nc m -> (forall r c a, nth2 m r c = Some a -> f a <> None) ->
  exists res, map_opt (map_opt f) m = Some res /\ rect nr nc res.
Proof.
  intros [H1 H2] Hf. destruct (map_opt_total (map_opt f) m) as [res Hres].
  - intros row Hrow. apply In_nth_error in Hrow. destruct Hrow as [r Hr].
    destruct (map_opt_total f row) as [x Hx]; [|congruence].
    intros a Ha. apply In_nth_error in Ha. destruct Ha as [c Hc].
    apply (Hf r c a). unfold nth2. rewrite Hr. auto.
  - exists res. split; auto. split.
    + rewrite (map_opt_length _ _ _ Hres). auto.
    + eapply map_opt_Forall_len; eauto.
Qed.

Lemma combine_nth_error {A B} (la : list A) (lb : list B) i :
  nth_error (combine la lb) i =
  match nth_error la i, nth_error lb i with Some a, Some b => Some (a, b) | _, _ => None end.
Proof.
  revert lb i. induction la; intros [|b lb] [|i]; simpl; auto.
  - destruct (nth_error la i); auto.
Qed.

Lemma put_invalid_nth {A} inv (conv : A -> ext) invalid m r c :
  nth2 (put_invalid inv conv invalid m) r c =
  match nth2 invalid r c, nth2 m r c with
  | Some b, Some a => Some (if b then inv else conv a) | _, _ => None end.
Proof.
  unfold put_invalid, nth2. rewrite nth_error_map, combine_nth_error.
  destruct (nth_error invalid r) as [ri|]; simpl; auto.
  destruct (nth_error m r) as [rm|]; simpl.
  - rewrite nth_error_map, combine_nth_error.
    destruct (nth_error ri c), (nth_error rm c); simpl; auto.
  - destruct (nth_error ri c); auto.
Qed.

Lemma put_invalid_rect {A} inv (conv : A -> ext) invalid m nr nc :
  rect nr nc invalid -> rect nr nc m -> rect nr nc (put_invalid inv conv invalid m).
Proof.
  intros [H1 H2] [H3 H4]. unfold put_invalid. split.
  - rewrite map_length, combine_length. lia.
  - rewrite Forall_forall in *. intros x Hx. apply in_map_iff in Hx. destruct Hx as ([a b] & <- & Hy).
    rewrite map_length, combine_length. simpl.
    rewrite (H2 a), (H4 b); [lia| eapply in_combine_r; eauto | eapply in_combine_l; eauto].
Qed.

(** Per pixel result of the disparity step, without chunk. *)
Definition pixel_result (cv : cost_volumes) (P : list (list ext)) (inv dcol drow sc : ext) : Prop :=
  let t := cv_measure cv in
  let F := map (map (fill_nan t)) (plane_user cv P) in
  if all_nan (plane_user cv P) then dcol = inv /\ drow = inv /\ sc = inv
  else exists i j zi zj,
     nth_error (cv_disp_col cv) (user_l cv + i) = Some zi /\ dcol = Fin zi /\
     user_l cv + i < length (cv_disp_col cv) - user_r cv /\
     nth_error (cv_disp_row cv) (user_u cv + j) = Some zj /\ drow = Fin zj /\
     user_u cv + j < length (cv_disp_row cv) - user_d cv /\
     plane_best t F sc /\ sc <> NaN /\
     (exists dr, nth2 F i dr = Some sc) /\ (exists dc, nth2 F dc j = Some sc) /\
     (forall k dr, k < i -> nth2 F k dr <> Some sc) /\ (forall k dc, k < j -> nth2 F dc k <> Some sc).

(** The same as a function. *)
Definition pixel_fun (cv : cost_volumes) (inv : ext) (P : list (list ext)) : option (ext * ext * ext) :=
  let t := cv_measure cv in
  let ndr := length (cv_disp_row cv) - user_d cv - user_u cv in
  let F := map (map (fill_nan t)) (plane_user cv P) in
  match reduce_axis2 t ndr F, reduce_axis3 t F with
  | Some bc, Some br =>
    match np_arg t bc, np_arg t br, np_ext t br with
    | Some j, Some i, Some m =>
      match nth_error (slice (user_l cv) (length (cv_disp_col cv) - user_r cv) (cv_disp_col cv)) i,
            nth_error (slice (user_u cv) (length (cv_disp_row cv) - user_d cv) (cv_disp_row cv)) j with
      | Some zi, Some zj =>
         if all_nan (plane_user cv P) then Some (inv, inv, inv) else Some (Fin zi, Fin zj, m)
      | _, _ => None
      end
    | _, _, _ => None
    end
  | _, _ => None
  end.

Lemma fill_not_nan t x : fill_nan t x <> NaN.
Proof. unfold fill_nan. destruct x; simpl; try congruence. apply worst_notnan. Qed.

Theorem compute_disp_maps_pixels chunk inv cv : wf_cv cv ->
  exists mcol mrow score, compute_disp_maps chunk inv cv = Some (mcol, mrow, score) /\
    rect (cv_nrow cv) (cv_ncol cv) mcol /\ rect (cv_nrow cv) (cv_ncol cv) mrow /\ rect (cv_nrow cv) (cv_ncol cv) score /\
    forall r c P, nth2 (cv_data cv) r c = Some P ->
      exists dcol drow sc, nth2 mcol r c = Some dcol /\ nth2 mrow r c = Some drow /\ nth2 score r c = Some sc /\
        pixel_result cv P inv dcol drow sc /\ pixel_fun cv inv P = Some (dcol, drow, sc).
Proof.
  intros Hwf. destruct (user_view cv Hwf) as (Hdc & Hdr & Hview & Hrect).
  destruct Hwf as (Hr0 & Hp & (dc0 & Hdc0) & (dr0 & Hdr0)).
  apply user_col_eq in Hdc0. apply user_row_eq in Hdr0.
  unfold compute_disp_maps.
  set (u := cost_volumes_user cv) in *. set (t := cv_measure cv).
  set (nr := cv_nrow cv) in *. set (nc := cv_ncol cv) in *.
  set (filled := map (map (map (map (fill_nan t)))) (cv_data u)).
  set (ndc := length (cv_disp_col cv) - user_r cv - user_l cv).
  set (ndr := length (cv_disp_row cv) - user_d cv - user_u cv).
  assert (Hlr : length (cv_disp_row u) = ndr) by (rewrite Hdr, slice_length'; unfold ndr; lia).
  assert (Hlc : length (cv_disp_col u) = ndc) by (rewrite Hdc, slice_length'; unfold ndc; lia).
  rewrite Hlr.
  assert (Hfr : rect nr nc filled) by (apply rect_map; auto).
  assert (Hndc : 0 < ndc) by (unfold ndc; lia).
  assert (Hndr : 0 < ndr) by (unfold ndr; lia).
  assert (Hfill : forall r c F, nth2 filled r c = Some F ->
     exists P, nth2 (cv_data cv) r c = Some P /\ F = map (map (fill_nan t)) (plane_user cv P) /\
        rect ndc ndr F /\ (forall dc dr x, nth2 F dc dr = Some x -> x <> NaN)).
  { intros r c F HF. unfold filled in HF. rewrite nth2_map, Hview in HF.
    destruct (nth2 (cv_data cv) r c) as [P|] eqn:EP; simpl in HF; try discriminate.
    injection HF as <-. exists P. split; auto. split; auto. split.
    - apply rect_map. apply plane_user_rect. eauto.
    - intros dc dr x Hx. rewrite nth2_map in Hx. destruct (nth2 (plane_user cv P) dc dr); simpl in Hx; try discriminate.
      injection Hx as <-. apply fill_not_nan. }
  (* maps over columns *)
  destruct (map_opt2_total (reduce_axis2 t ndr) nr nc filled Hfr) as (mc & Hmc & Hmcr).
  { intros r c F HF. destruct (Hfill _ _ _ HF) as (P & _ & _ & HFr & HFn).
    destruct (row_arg_spec t ndc ndr F HFr Hndc Hndr HFn) as (bc & i & m & E & _). congruence. }
  unfold extrema_split.
  rewrite (chunked_spec _ [] _ _ nr nc filled mc Hfr (arange_inc _ _ _) (arange_inc _ _ _) Hmc).
  destruct (map_opt2_total (np_arg t) nr nc mc Hmcr) as (ir & Hir & Hirr).
  { intros r c b Hb. rewrite (map_opt_map_opt_nth _ _ _ r c Hmc) in Hb.
    destruct (nth2 filled r c) as [F|] eqn:HF; try discriminate.
    destruct (Hfill _ _ _ HF) as (P & _ & _ & HFr & HFn).
    destruct (row_arg_spec t ndc ndr F HFr Hndc Hndr HFn) as (bc & i & m & E & E2 & _). congruence. }
  unfold arg_split.
  rewrite (chunked_spec _ 0 _ _ nr nc mc ir Hmcr (arange_inc _ _ _) (arange_inc _ _ _) Hir).
  destruct (map_opt2_total (fun i => nth_error (cv_disp_row u) i) nr nc ir Hirr) as (dmr & Hdmr & Hdmrr).
  { intros r c i Hi. rewrite (map_opt_map_opt_nth _ _ _ r c Hir) in Hi.
    rewrite (map_opt_map_opt_nth _ _ _ r c Hmc) in Hi.
    destruct (nth2 filled r c) as [F|] eqn:HF; try discriminate.
    destruct (Hfill _ _ _ HF) as (P & _ & _ & HFr & HFn).
    destruct (row_arg_spec t ndc ndr F HFr Hndc Hndr HFn) as (bc & i' & m & E & E2 & E3 & _).
    rewrite E, E2 in Hi. injection Hi as <-. apply nth_error_Some. lia. }
  unfold take_coords at 1. rewrite Hdmr.
  (* maps over rows *)
  destruct (map_opt2_total (reduce_axis3 t) nr nc filled Hfr) as (mr & Hmr & Hmrr).
  { intros r c F HF. destruct (Hfill _ _ _ HF) as (P & _ & _ & HFr & HFn).
    destruct (col_arg_spec t ndc ndr F HFr Hndc Hndr HFn) as (bc & i & m & E & _). congruence. }
  rewrite (chunked_spec _ [] _ _ nr nc filled mr Hfr (arange_inc _ _ _) (arange_inc _ _ _) Hmr).
  destruct (map_opt2_total (np_arg t) nr nc mr Hmrr) as (ic & Hic & Hicr).
  { intros r c b Hb. rewrite (map_opt_map_opt_nth _ _ _ r c Hmr) in Hb.
    destruct (nth2 filled r c) as [F|] eqn:HF; try discriminate.
    destruct (Hfill _ _ _ HF) as (P & _ & _ & HFr & HFn).
    destruct (col_arg_spec t ndc ndr F HFr Hndc Hndr HFn) as (bc & i & m & E & E2 & _). congruence. }
  rewrite (chunked_spec _ 0 _ _ nr nc mr ic Hmrr (arange_inc _ _ _) (arange_inc _ _ _) Hic).
  destruct (map_opt2_total (fun i => nth_error (cv_disp_col u) i) nr nc ic Hicr) as (dmc & Hdmc & Hdmcr).
  { intros r c i Hi. rewrite (map_opt_map_opt_nth _ _ _ r c Hic) in Hi.
    rewrite (map_opt_map_opt_nth _ _ _ r c Hmr) in Hi.
    destruct (nth2 filled r c) as [F|] eqn:HF; try discriminate.
    destruct (Hfill _ _ _ HF) as (P & _ & _ & HFr & HFn).
    destruct (col_arg_spec t ndc ndr F HFr Hndc Hndr HFn) as (bc & i' & m & E & E2 & _ & E3 & _).
    rewrite E, E2 in Hi. injection Hi as <-. apply nth_error_Some. lia. }
  unfold take_coords. rewrite Hdmc.
  destruct (map_opt2_total (np_ext t) nr nc mr Hmrr) as (sc & Hsc & Hscr).
  { intros r c b Hb. rewrite (map_opt_map_opt_nth _ _ _ r c Hmr) in Hb.
    destruct (nth2 filled r c) as [F|] eqn:HF; try discriminate.
    destruct (Hfill _ _ _ HF) as (P & _ & _ & HFr & HFn).
    destruct (col_arg_spec t ndc ndr F HFr Hndc Hndr HFn) as (bc & i & m & E & _ & E2 & _). congruence. }
  unfold get_score.
  rewrite (chunked_spec _ NaN _ _ nr nc mr sc Hmrr (arange_inc _ _ _) (arange_inc _ _ _) Hsc).
  set (invalid := map (map all_nan) (cv_data u)).
  assert (Hinvr : rect nr nc invalid) by (apply rect_map; auto).
  eexists _, _, _. split; [reflexivity|].
  repeat (split; [apply put_invalid_rect; auto|]).
  intros r c P HP.
  assert (HF : nth2 filled r c = Some (map (map (fill_nan t)) (plane_user cv P))).
  { unfold filled. rewrite nth2_map, Hview, HP. reflexivity. }
  assert (HI : nth2 invalid r c = Some (all_nan (plane_user cv P))).
  { unfold invalid. rewrite nth2_map, Hview, HP. reflexivity. }
  destruct (Hfill _ _ _ HF) as (P' & HP' & _ & HFr & HFn).
  set (F := map (map (fill_nan t)) (plane_user cv P)) in *.
  destruct (row_arg_spec t ndc ndr F HFr Hndc Hndr HFn) as (bc & j & m & E1 & E2 & E3 & Hmn & Hbest & Hdcx & Hfx).
  destruct (col_arg_spec t ndc ndr F HFr Hndc Hndr HFn) as (bc' & i & m' & E1' & E2' & E2'' & E3' & Hmn' & Hbest' & Hdrx & Hfx').
  assert (m' = m) by (eapply plane_best_unique; eauto). subst m'.
  assert (Hzi : exists zi, nth_error (cv_disp_col u) i = Some zi).
  { destruct (nth_error (cv_disp_col u) i) eqn:E; eauto. apply nth_error_None in E. lia. }
  assert (Hzj : exists zj, nth_error (cv_disp_row u) j = Some zj).
  { destruct (nth_error (cv_disp_row u) j) eqn:E; eauto. apply nth_error_None in E. lia. }
  destruct Hzi as [zi Hzi]. destruct Hzj as [zj Hzj].
  assert (Ndmc : nth2 dmc r c = Some zi).
  { rewrite (map_opt_map_opt_nth _ _ _ r c Hdmc), (map_opt_map_opt_nth _ _ _ r c Hic),
      (map_opt_map_opt_nth _ _ _ r c Hmr), HF, E1', E2'. auto. }
  assert (Ndmr : nth2 dmr r c = Some zj).
  { rewrite (map_opt_map_opt_nth _ _ _ r c Hdmr), (map_opt_map_opt_nth _ _ _ r c Hir),
      (map_opt_map_opt_nth _ _ _ r c Hmc), HF, E1, E2. auto. }
  assert (Nsc : nth2 sc r c = Some m).
  { rewrite (map_opt_map_opt_nth _ _ _ r c Hsc), (map_opt_map_opt_nth _ _ _ r c Hmr), HF, E1'. auto. }
  exists (if all_nan (plane_user cv P) then inv else Fin zi),
         (if all_nan (plane_user cv P) then inv else Fin zj),
         (if all_nan (plane_user cv P) then inv else m).
  rewrite !put_invalid_nth, HI, Ndmc, Ndmr, Nsc.
  repeat (split; [reflexivity|]).
  split.
  2: { unfold pixel_fun. fold t F ndr. rewrite E1, E1', E2, E2', E2''. rewrite <- Hdc, <- Hdr, Hzi, Hzj.
       destruct (all_nan (plane_user cv P)); auto. }
  unfold pixel_result. fold t. fold F.
  destruct (all_nan (plane_user cv P)); auto.
  exists i, j, zi, zj.
  rewrite Hdc, slice_nth in Hzi. rewrite Hdr, slice_nth in Hzj.
  destruct (Nat.ltb_spec (user_l cv + i) (length (cv_disp_col cv) - user_r cv)); try discriminate.
  destruct (Nat.ltb_spec (user_u cv + j) (length (cv_disp_row cv) - user_d cv)); try discriminate.
  repeat (split; [solve [auto]|]). auto.
Qed.
