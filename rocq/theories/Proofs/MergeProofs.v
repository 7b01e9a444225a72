(** More about update_conf: merging what was already merged. *)
From Coq Require Import List String Bool ZArith Lia.
From Verif Require Import Base.Json Model.ConfigModel Spec.ConfigSpec Proofs.ConfigProofs Proofs.ConfigStepProofs.
Import ListNotations.
Open Scope Z_scope.
Open Scope string_scope.
Open Scope list_scope.

Lemma wf_empty : wf (JDict []).
Proof. constructor; [constructor | intros ? ? []]. Qed.
Lemma get_or_empty_wf k d : wf (JDict d) -> wf (get_or_empty k d).
Proof. intros H. unfold get_or_empty. destruct (lookup k d) eqn:E; [exact (wf_lookup _ _ _ H E) | apply wf_empty]. Qed.
Lemma get_or_empty_normal k d : normal (JDict d) -> normal (get_or_empty k d).
Proof. intros H. unfold get_or_empty. destruct (lookup k d) eqn:E; [exact (normal_lookup _ _ _ H E) | apply normal_empty]. Qed.
Lemma normal_leaf j : is_dict j = false -> conv j = j -> normal j.
Proof.
  intros Hd Hc [|k p] v H; cbn in H.
  - injection H as <-. rewrite <- Hc at 2. apply conv_reads.
  - destruct j; discriminate.
Qed.
Lemma normal_root j : normal j -> conv j = j.
Proof. intros H. exact (normal_conv [] j j H eq_refl). Qed.
Lemma normal_dict d : (forall k v, lookup k d = Some v -> normal v) -> normal (JDict d).
Proof.
  intros H [|k p] v Hv; cbn in Hv.
  - injection Hv as <-. apply reads_same; discriminate.
  - destruct (lookup k d) eqn:E; [|discriminate]. exact (H _ _ E p v Hv).
Qed.

(** The result has no string that stands for a float. *)
Lemma update_normal u : forall d r, wf u -> normal d -> update_conf d u = Some r -> normal r.
Proof.
  induction u as [u Hu|items IH] using json_dict_ind; intros d r Hw Hn H; [now rewrite update_conf_leaf in H|].
  destruct d as [| | | | | | | |cfg]; try (rewrite update_conf_other in H by auto; destruct items; [|discriminate]; now injection H as <-).
  rewrite update_conf_dict in H. destruct (upd_items items cfg) as [res|] eqn:E; [|discriminate]. injection H as <-.
  pose proof (wf_dict_inv _ Hw) as [Hi Hv]. apply normal_dict. intros k v Hl.
  pose proof (upd_lookup _ _ _ E Hi k) as L. destruct (lookup k items) as [x|] eqn:Ek.
  - destruct L as [L _]. rewrite Hl in L. symmetry in L. unfold merge1 in L. destruct (is_dict x) eqn:Ex.
    + eapply (IH k x (lookup_In _ _ _ Ek)); [exact (Hv _ _ (lookup_In _ _ _ Ek)) | apply get_or_empty_normal; eauto | exact L].
    + injection L as <-. apply normal_leaf; [now apply conv_leaf | apply conv_conv].
  - rewrite Hl in L. symmetry in L. exact (normal_lookup _ _ _ Hn L).
Qed.

(** An empty dictionary updated by a normal configuration. *)
Lemma update_empty j : is_dict j = true -> wf j -> normal j -> update_conf (JDict []) j = Some j.
Proof.
  induction j as [j Hj|d IH] using json_dict_ind; [congruence|]. intros _ Hw Hn. pose proof (wf_dict_inv _ Hw) as [Hd Hv].
  rewrite update_conf_dict. rewrite (upd_fixpoint0 d [] (keys d)); [reflexivity|exact Hd|reflexivity|].
  intros k v Hin. pose proof (In_lookup _ _ _ Hd Hin) as Hl. unfold merge1, get_or_empty. cbn [lookup].
  destruct (is_dict v) eqn:Ev.
  - apply (IH k v Hin Ev); [exact (Hv _ _ Hin) | exact (normal_lookup _ _ _ Hn Hl)].
  - f_equal. apply normal_root. exact (normal_lookup _ _ _ Hn Hl).
Qed.
Lemma merge_empty v : wf v -> normal v -> merge1 (JDict []) v = Some v.
Proof.
  intros Hw Hn. unfold merge1. destruct (is_dict v) eqn:E; [now apply update_empty|]. f_equal. now apply normal_root.
Qed.
(** It never fails. *)
Lemma update_empty_total u : is_dict u = true -> wf u -> exists r, update_conf (JDict []) u = Some (JDict r).
Proof.
  induction u as [u Hu|items IH] using json_dict_ind; [congruence|]. intros _ Hw. pose proof (wf_dict_inv _ Hw) as [Hi Hv].
  rewrite update_conf_dict.
  assert (G : forall l cfg, NoDup (keys l) -> (forall k v, In (k, v) l -> In (k, v) items) -> (forall k, In k (keys l) -> ~ In k (keys cfg)) ->
    exists r, upd_items l cfg = Some r).
  { induction l as [|[k v] l IHl]; intros cfg Hn Hin Hk; [now exists cfg|]. cbn [upd_items].
    assert (Hg : get_or_empty k cfg = JDict []).
    { unfold get_or_empty. rewrite lookup_none; [reflexivity|]. apply Hk. now left. }
    rewrite Hg. inversion Hn as [|? ? Ha Hb]; subst.
    assert (Hm : exists w, merge1 (JDict []) v = Some w).
    { unfold merge1. destruct (is_dict v) eqn:Ev; [|eauto].
      destruct (IH k v (Hin _ _ (or_introl eq_refl)) Ev (Hv _ _ (Hin _ _ (or_introl eq_refl)))) as (r & Hr). eauto. }
    destruct Hm as (w & ->). apply IHl; auto.
    - intros k' v' H. apply Hin. now right.
    - intros k' Hk' Hc. apply assign_keys in Hc. destruct Hc as [->|Hc]; [contradiction|]. apply (Hk k'); [now right | exact Hc]. }
  destruct (G items [] Hi (fun k v H => H)) as (r & ->); [intros k _ []|]. now exists r.
Qed.
Lemma merge_again d v w : wf v -> wf d -> normal d -> is_dict d = true -> merge1 d v = Some w -> merge1 d w = Some w.
Proof.
  intros Hw Hd Hn Hx H. unfold merge1 in *. destruct (is_dict v) eqn:E.
  - destruct (update_again v d w Hw Hd Hn Hx H) as [Hr Ha]. now rewrite Hr.
  - injection H as <-. rewrite conv_leaf by exact E. now rewrite conv_conv.
Qed.
Lemma merge_wf d v w : wf v -> wf d -> merge1 d v = Some w -> wf w.
Proof.
  intros Hv Hd H. unfold merge1 in H. destruct (is_dict v) eqn:E; [exact (update_wf _ _ _ Hv Hd H)|].
  injection H as <-. apply wf_leaf. now apply conv_leaf.
Qed.
Lemma merge_normal d v w : wf v -> normal d -> merge1 d v = Some w -> normal w.
Proof.
  intros Hv Hd H. unfold merge1 in H. destruct (is_dict v) eqn:E; [exact (update_normal _ _ _ Hv Hd H)|].
  injection H as <-. apply normal_leaf; [now apply conv_leaf | apply conv_conv].
Qed.

(** Update by values that are already there. *)
Lemma upd_same items : forall cfg, (forall k v, In (k, v) items -> lookup k cfg = Some v \/ False) ->
  (forall k v, In (k, v) items -> merge1 (get_or_empty k cfg) v = Some v) -> upd_items items cfg = Some cfg.
Proof.
  induction items as [|[k v] l IH]; intros cfg Hl Hm; [reflexivity|]. cbn [upd_items].
  rewrite (Hm k v (or_introl eq_refl)). destruct (Hl k v (or_introl eq_refl)) as [E|[]]. rewrite assign_same by exact E.
  apply IH; intros; [apply Hl | apply Hm]; now right.
Qed.

(** Keys of the result. *)
Definition new_keys (old : list string) (l : list string) : list string := List.filter (fun k => negb (existsb (String.eqb k) old)) l.
Lemma existsb_in k l : existsb (String.eqb k) l = true <-> In k l.
Proof.
  rewrite existsb_exists. split; [intros (x & Hx & E); apply String.eqb_eq in E; now subst|]. intros H. exists k. split; [exact H | apply String.eqb_refl].
Qed.
Lemma new_keys_app old a b : new_keys old (a ++ b) = new_keys old a ++ new_keys old b.
Proof. apply filter_app. Qed.
Lemma new_keys_none old l : (forall k, In k l -> In k old) -> new_keys old l = [].
Proof.
  induction l as [|k l IH]; intros H; cbn; [reflexivity|]. rewrite (proj2 (existsb_in k old)) by (apply H; now left). cbn.
  apply IH. intros; apply H; now right.
Qed.
Lemma new_keys_all old l : (forall k, In k l -> ~ In k old) -> new_keys old l = l.
Proof.
  induction l as [|k l IH]; intros H; cbn; [reflexivity|]. destruct (existsb (String.eqb k) old) eqn:E.
  - apply existsb_in in E. exfalso. apply (H k); [now left | exact E].
  - cbn. f_equal. apply IH. intros; apply H; now right.
Qed.
Lemma keys_assign_in k v (d : dict) : In k (keys d) -> keys (assign k v d) = keys d.
Proof. intros H. destruct (keys_assign k v d) as [E|[E _]]; [exact E | contradiction]. Qed.
Lemma keys_assign_out k v (d : dict) : ~ In k (keys d) -> keys (assign k v d) = keys d ++ [k].
Proof.
  intros H. destruct (keys_assign k v d) as [E|[_ E]]; [|exact E]. exfalso. apply H. rewrite <- E. unfold keys. apply assign_keys. now left.
Qed.
Lemma upd_new_keys items : forall cfg res, NoDup (keys items) -> upd_items items cfg = Some res -> keys res = keys cfg ++ new_keys (keys cfg) (keys items).
Proof.
  induction items as [|[k v] l IH]; intros cfg res Hn H; cbn [upd_items] in H; [injection H as <-; now rewrite app_nil_r|].
  destruct (merge1 _ v) as [w|]; [|discriminate]. inversion Hn as [|? ? Ha Hb]; subst. rewrite (IH _ _ Hb H).
  cbn [keys map fst new_keys List.filter]. fold (keys l). destruct (existsb (String.eqb k) (keys cfg)) eqn:E.
  - apply existsb_in in E. rewrite keys_assign_in by exact E. reflexivity.
  - assert (Hk : ~ In k (keys cfg)) by (intros Hc; apply existsb_in in Hc; congruence). rewrite keys_assign_out by exact Hk. cbn [negb].
    rewrite <- app_assoc. cbn [app]. f_equal. f_equal. unfold new_keys. apply filter_ext_in. intros a Hin. f_equal.
    rewrite existsb_app. cbn [existsb]. destruct (String.eqb_spec a k) as [->|]; [contradiction|]. now rewrite !orb_false_r.
Qed.
Lemma dict_ext (a : dict) : forall b, NoDup (keys a) -> keys a = keys b -> (forall k, lookup k a = lookup k b) -> a = b.
Proof.
  induction a as [|[k v] a IH]; intros [|[k' v'] b] Hn Hk Hl; try discriminate; [reflexivity|].
  cbn in Hk. injection Hk as <- Hk. inversion Hn as [|? ? Ha Hb]; subst.
  pose proof (Hl k) as E. cbn in E. rewrite String.eqb_refl in E. injection E as <-. f_equal. apply IH; auto.
  intros x. specialize (Hl x). cbn in Hl. destruct (x =? k) eqn:E; [|exact Hl].
  apply String.eqb_eq in E. subst x. rewrite !lookup_none; auto; unfold keys in *; congruence.
Qed.
Lemma upd_total items : forall cfg, NoDup (keys items) -> (forall k v, In (k, v) items -> merge1 (get_or_empty k cfg) v <> None) ->
  exists res, upd_items items cfg = Some res.
Proof.
  induction items as [|[k v] l IH]; intros cfg Hn H; [now exists cfg|]. cbn [upd_items]. inversion Hn as [|? ? Ha Hb]; subst.
  destruct (merge1 (get_or_empty k cfg) v) as [w|] eqn:E; [|exfalso; apply (H k v); [now left | exact E]].
  apply IH; auto. intros k' v' Hin. rewrite get_assign_other; [apply H; now right|].
  intros ->. apply Ha. apply in_map_iff. now exists (k, v').
Qed.

(** Two completions one after the other, with defaults that have no key in common, done again. *)
Lemma complete_twice (d1 d2 items r1 r2 : dict) :
  wf (JDict items) -> wf (JDict d1) -> wf (JDict d2) -> normal (JDict d1) -> normal (JDict d2) ->
  (forall k v, lookup k d1 = Some v -> is_dict v = true) -> (forall k v, lookup k d2 = Some v -> is_dict v = true) ->
  (forall k, In k (keys d1) -> ~ In k (keys d2)) ->
  upd_items items d1 = Some r1 -> upd_items r1 d2 = Some r2 ->
  exists r3, upd_items r2 d1 = Some r3 /\ upd_items r3 d2 = Some r2.
Proof.
  intros Wi W1 W2 N1 N2 D1 D2 Hdis H1 H2.
  pose proof (wf_dict_inv _ Wi) as [Ki Vi]. pose proof (wf_dict_inv _ W1) as [K1 _]. pose proof (wf_dict_inv _ W2) as [K2 _].
  assert (U1 : update_conf (JDict d1) (JDict items) = Some (JDict r1)) by (rewrite update_conf_dict, H1; reflexivity).
  assert (U2 : update_conf (JDict d2) (JDict r1) = Some (JDict r2)) by (rewrite update_conf_dict, H2; reflexivity).
  assert (Wr1 : wf (JDict r1)) by exact (update_wf _ _ _ Wi W1 U1). assert (Nr1 : normal (JDict r1)) by exact (update_normal _ _ _ Wi N1 U1).
  assert (Wr2 : wf (JDict r2)) by exact (update_wf _ _ _ Wr1 W2 U2). assert (Nr2 : normal (JDict r2)) by exact (update_normal _ _ _ Wr1 N2 U2).
  pose proof (wf_dict_inv _ Wr1) as [Kr1 _]. pose proof (wf_dict_inv _ Wr2) as [Kr2 _].
  assert (G : forall d k, (forall k v, lookup k d = Some v -> is_dict v = true) -> is_dict (get_or_empty k d) = true).
  { intros d k Hd. unfold get_or_empty. destruct (lookup k d) eqn:E; [exact (Hd _ _ E) | reflexivity]. }
  pose proof (upd_new_keys _ _ _ Ki H1) as E1. pose proof (upd_new_keys _ _ _ Kr1 H2) as E2.
  assert (A2 : forall k v, lookup k r2 = Some v -> merge1 (get_or_empty k d2) v = Some v).
  { intros k v Hl. pose proof (upd_lookup _ _ _ H2 Kr1 k) as L. destruct (lookup k r1) as [x|] eqn:Ex.
    - destruct L as [L _]. rewrite Hl in L. symmetry in L. eapply merge_again; [| | | |exact L].
      + exact (wf_lookup _ _ _ Wr1 Ex). + now apply get_or_empty_wf. + now apply get_or_empty_normal. + now apply G.
    - rewrite Hl in L. symmetry in L. unfold get_or_empty. rewrite L. unfold merge1. rewrite (D2 _ _ L).
      apply update_self; [exact (D2 _ _ L) | exact (wf_lookup _ _ _ W2 L) | exact (normal_lookup _ _ _ N2 L)]. }
  assert (A1 : forall k v, lookup k r2 = Some v -> merge1 (get_or_empty k d1) v = Some v).
  { intros k v Hl. destruct (lookup k d1) as [x1|] eqn:Ed.
    - assert (Hk2 : lookup k d2 = None). { apply lookup_none. apply Hdis. apply lookup_in. congruence. }
      assert (Hk1 : lookup k r1 <> None). { apply lookup_in. fold (keys r1). rewrite E1. apply in_or_app. left. apply lookup_in. congruence. }
      pose proof (upd_lookup _ _ _ H2 Kr1 k) as L. destruct (lookup k r1) as [x|] eqn:Ex; [|congruence].
      destruct L as [L _]. unfold get_or_empty in L. rewrite Hk2 in L.
      rewrite merge_empty in L; [|exact (wf_lookup _ _ _ Wr1 Ex) | exact (normal_lookup _ _ _ Nr1 Ex)].
      assert (x = v) by congruence. subst x.
      pose proof (upd_lookup _ _ _ H1 Ki k) as L1. destruct (lookup k items) as [y|] eqn:Ey.
      + destruct L1 as [L1 _]. rewrite Ex in L1. symmetry in L1. eapply merge_again; [| | | |exact L1].
        * exact (wf_lookup _ _ _ Wi Ey). * now apply get_or_empty_wf. * now apply get_or_empty_normal. * now apply G.
      + rewrite Ex in L1. unfold get_or_empty. rewrite <- L1. unfold merge1. rewrite (D1 k v) by congruence.
        apply update_self; [apply (D1 k v); congruence | exact (wf_lookup _ _ _ Wr2 Hl) | exact (normal_lookup _ _ _ Nr2 Hl)].
    - unfold get_or_empty. rewrite Ed. apply merge_empty; [exact (wf_lookup _ _ _ Wr2 Hl) | exact (normal_lookup _ _ _ Nr2 Hl)]. }
  destruct (upd_total r2 d1 Kr2) as (r3 & H3).
  { intros k v Hin. rewrite A1; [discriminate|]. now apply In_lookup. }
  assert (L3 : forall k, lookup k r3 = lookup k r2).
  { intros k. pose proof (upd_lookup _ _ _ H3 Kr2 k) as L. destruct (lookup k r2) as [v|] eqn:E.
    - destruct L as [L _]. rewrite L. now apply A1.
    - rewrite L. destruct (lookup k d1) eqn:Ed; [|reflexivity]. exfalso.
      assert (In k (keys r2)) as Hin.
      { rewrite E2. destruct (in_dec string_dec k (keys d2)) as [|Hn2]; [apply in_or_app; now left|]. apply in_or_app. right.
        unfold new_keys. apply filter_In. split; [rewrite E1; apply in_or_app; left; apply lookup_in; congruence|].
        destruct (existsb _ _) eqn:Eb; [|reflexivity]. apply existsb_in in Eb. contradiction. }
      apply lookup_in in Hin. congruence. }
  assert (Kr3 : NoDup (keys r3)) by exact (upd_nodup _ _ _ H3 K1).
  exists r3. split; [exact H3|].
  destruct (upd_total r3 d2 Kr3) as (r4 & H4).
  { intros k v Hin. apply In_lookup in Hin; [|exact Kr3]. rewrite L3 in Hin. rewrite A2 by exact Hin. discriminate. }
  rewrite H4. f_equal. apply dict_ext.
  - exact (upd_nodup _ _ _ H4 K2).
  - rewrite (upd_new_keys _ _ _ Kr3 H4), (upd_new_keys _ _ _ Kr2 H3), E2, E1.
    set (e := new_keys (keys d1) (keys items)).
    rewrite !new_keys_app.
    assert (X1 : new_keys (keys d2) (keys d1) = keys d1) by (apply new_keys_all; exact Hdis).
    assert (X2 : new_keys (keys d2) (keys d2) = []) by (apply new_keys_none; auto).
    assert (X3 : new_keys (keys d1) (keys d1) = []) by (apply new_keys_none; auto).
    assert (X4 : new_keys (keys d1) (keys d2) = keys d2) by (apply new_keys_all; intros k A B; exact (Hdis _ B A)).
    assert (X5 : new_keys (keys d1) (new_keys (keys d2) e) = new_keys (keys d2) e).
    { apply new_keys_all. intros k Hk. unfold new_keys in Hk. apply filter_In in Hk. destruct Hk as [Hk _]. unfold e, new_keys in Hk.
      apply filter_In in Hk. destruct Hk as [_ Hk]. intros Hc. apply existsb_in in Hc. rewrite Hc in Hk. discriminate. }
    assert (X6 : new_keys (keys d2) (new_keys (keys d2) e) = new_keys (keys d2) e).
    { apply new_keys_all. intros k Hk. unfold new_keys in Hk. apply filter_In in Hk. destruct Hk as [_ Hk]. intros Hc.
      apply existsb_in in Hc. rewrite Hc in Hk. discriminate. }
    rewrite X1, X3, X4, X5, X2, X6. reflexivity.
  - intros k. pose proof (upd_lookup _ _ _ H4 Kr3 k) as L. rewrite L3 in L. destruct (lookup k r2) as [v|] eqn:E.
    + destruct L as [L _]. rewrite L. now apply A2.
    + rewrite L. destruct (lookup k d2) eqn:Ed; [|reflexivity]. exfalso.
      assert (In k (keys r2)) as Hin by (rewrite E2; apply in_or_app; left; apply lookup_in; congruence).
      apply lookup_in in Hin. congruence.
Qed.
