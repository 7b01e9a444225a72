(** Proofs about the set of the configurations that are accepted. *)
From Coq Require Import List String Bool ZArith Lia.
From Verif Require Import Base.Json Base.Arr Model.CommonModel Model.ConfigModel Model.InputModel Model.MachineModel Model.CheckConfModel
  Spec.ConfigSpec Spec.InputSpec Spec.MachineSpec Spec.CheckConfSpec Spec.AcceptSpec
  Proofs.ConfigProofs Proofs.ConfigStepProofs Proofs.InputProofs Proofs.MachineProofs Proofs.MergeProofs Proofs.CheckConfProofs.
Import ListNotations.
Open Scope Z_scope.
Open Scope string_scope.
Open Scope list_scope.

(** * Reading *)
Lemma merge_dict (c u : dict) : merge1 (JDict c) (JDict u) = option_map JDict (upd_items u c).
Proof. unfold merge1. cbn [is_dict]. apply update_conf_dict. Qed.
Lemma merge_leaf d v : is_dict v = false -> merge1 d v = Some (conv v).
Proof. intros H. unfold merge1. now rewrite H. Qed.
Lemma upd_read u r : NoDup (keys u) -> upd_items u [] = Some r ->
  keys r = keys u /\ forall k, lookup k r = match lookup k u with Some v => merge1 (JDict []) v | None => None end.
Proof.
  intros Hu H. split.
  - rewrite (upd_new_keys _ _ _ Hu H). cbn. apply new_keys_all. intros k _ [].
  - intros k. pose proof (upd_lookup _ _ _ H Hu k) as L. unfold get_or_empty in L. cbn [lookup] in L. destruct (lookup k u); [apply L | exact L].
Qed.
Lemma lookup_some_keys (a b : dict) k v : keys a = keys b -> lookup k a = Some v -> exists w, lookup k b = Some w.
Proof.
  intros K L. assert (Hk : In k (keys b)) by (rewrite <- K; apply (in_map fst _ (k, v)); now apply lookup_In).
  apply lookup_in in Hk. destruct (lookup k b); [eauto | congruence].
Qed.
Lemma reads_merge j : wf j -> forall r, merge1 (JDict []) j = Some r <-> reads_cfg j r.
Proof.
  induction j as [j Hj|d IH] using json_dict_ind; intros Hw r.
  - rewrite merge_leaf by exact Hj. split.
    + intros H. injection H as <-. apply reads_leaf; [exact Hj | apply conv_reads].
    + intros H. inversion H as [j0 j1 _ R|d d']; subst; [|discriminate]. f_equal. symmetry. now apply reads_conv.
  - pose proof (wf_dict_inv _ Hw) as [Hd Hv].
    assert (F : forall r0, upd_items d [] = Some r0 -> reads_cfg (JDict d) (JDict r0)).
    { intros r0 H. destruct (upd_read _ _ Hd H) as [K L]. constructor; [exact K|]. intros k v v' L1 L2.
      rewrite L, L1 in L2. apply IH with (k := k); [now apply lookup_In | exact (wf_lookup _ _ _ Hw L1) | exact L2]. }
    rewrite merge_dict. split.
    + destruct (upd_items d []) as [r0|] eqn:E; [|discriminate]. intros H. injection H as <-. now apply F.
    + intros H. inversion H as [j0 j1 X|d0 d' K L]; subst; [discriminate|].
      destruct (update_empty_total (JDict d) eq_refl Hw) as (r0 & E). rewrite update_conf_dict in E.
      destruct (upd_items d []) as [r1|] eqn:E1; [|discriminate]. injection E as ->. cbn [option_map]. do 2 f_equal.
      destruct (upd_read _ _ Hd E1) as [K1 L1]. apply dict_ext; [now rewrite K1 | congruence|].
      intros k. rewrite L1. destruct (lookup k d) as [v|] eqn:Ek.
      * destruct (lookup_some_keys d d' k v) as (w & Ew); [congruence | exact Ek|]. rewrite Ew.
        apply IH with (k := k); [now apply lookup_In | exact (wf_lookup _ _ _ Hw Ek) | now apply (L k)].
      * destruct (lookup k d') as [w|] eqn:Ew; [|reflexivity]. destruct (lookup_some_keys d' d k w) as (x & Ex); [congruence | exact Ew | congruence].
Qed.
Lemma merge_empty_total v : wf v -> exists w, merge1 (JDict []) v = Some w.
Proof.
  intros Hw. destruct (is_dict v) eqn:E; [|rewrite merge_leaf by exact E; eauto]. destruct (update_empty_total v E Hw) as (r & Hr).
  unfold merge1. rewrite E, Hr. eauto.
Qed.

(** Reading twice is reading once. *)
Definition same_merge (a b : string * json) : Prop := fst a = fst b /\ forall d, merge1 d (snd b) = merge1 d (snd a).
Lemma upd_same_merge items r : Forall2 same_merge items r -> forall cfg, upd_items r cfg = upd_items items cfg.
Proof.
  induction 1 as [|[k v] [k' w] items r [E H] HF IH]; intros cfg; [reflexivity|]. cbn in E. subst k'. cbn [upd_items]. cbn [snd] in H. rewrite H.
  destruct (merge1 _ v); [apply IH | reflexivity].
Qed.
Lemma forall2_lookup (P : json -> json -> Prop) (a : dict) : forall b, NoDup (keys a) -> keys b = keys a ->
  (forall k v w, lookup k a = Some v -> lookup k b = Some w -> P v w) -> Forall2 (fun x y => fst x = fst y /\ P (snd x) (snd y)) a b.
Proof.
  induction a as [|[k v] a IH]; intros [|[k' w] b] Hn K H; try discriminate; constructor.
  - cbn in K. injection K as -> K. cbn. split; [reflexivity|]. apply (H k); cbn; now rewrite String.eqb_refl.
  - cbn in K. injection K as -> K. inversion Hn as [|? ? Hx Hy]; subst. apply IH; auto. intros k0 v0 w0 L1 L2. apply (H k0); cbn.
    + destruct (k0 =? k) eqn:E; [|exact L1]. apply String.eqb_eq in E. subst. exfalso. apply Hx. apply lookup_In in L1. exact (in_map fst _ _ L1).
    + destruct (k0 =? k) eqn:E; [|exact L2]. apply String.eqb_eq in E. subst. exfalso. apply Hx. apply lookup_In in L1. exact (in_map fst _ _ L1).
Qed.
Lemma merge_read v : wf v -> forall w d, merge1 (JDict []) v = Some w -> merge1 d w = merge1 d v.
Proof.
  induction v as [v Hv|items IH] using json_dict_ind; intros Hw w d H.
  - rewrite merge_leaf in H by exact Hv. injection H as <-. rewrite !merge_leaf by auto using conv_leaf. now rewrite conv_conv.
  - pose proof (wf_dict_inv _ Hw) as [Hi Hx]. rewrite merge_dict in H. destruct (upd_items items []) as [r|] eqn:E; [|discriminate]. injection H as <-.
    destruct (upd_read _ _ Hi E) as [K L].
    assert (HF : Forall2 same_merge items r).
    { apply (forall2_lookup (fun v w => forall d0, merge1 d0 w = merge1 d0 v)); auto. intros k v w L1 L2 d0. rewrite L, L1 in L2.
      apply (IH k v); [now apply lookup_In | exact (wf_lookup _ _ _ Hw L1) | exact L2]. }
    unfold merge1. cbn [is_dict]. destruct (is_dict d) eqn:Ed.
    + destruct d as [| | | | | | | |c]; try discriminate. rewrite !update_conf_dict. now rewrite (upd_same_merge _ _ HF).
    + rewrite !update_conf_other by exact Ed. destruct HF; reflexivity.
Qed.

(** * Dictionaries with defaults *)
Definition field_of (defs u : dict) (k : string) : option json :=
  match lookup k u with None => lookup k defs | Some v => merge1 (get_or_empty k defs) v end.
Lemma upd_fields u defs r : NoDup (keys u) -> upd_items u defs = Some r -> forall k, lookup k r = field_of defs u k.
Proof. intros Hu H k. pose proof (upd_lookup _ _ _ H Hu k) as L. unfold field_of. destruct (lookup k u); [apply L | exact L]. Qed.
Lemma upd_possible u defs : NoDup (keys u) ->
  ((exists r, upd_items u defs = Some r) <-> forall k v, lookup k u = Some v -> merge1 (get_or_empty k defs) v <> None).
Proof.
  intros Hu. split.
  - intros (r & H) k v L. pose proof (upd_lookup _ _ _ H Hu k) as L2. rewrite L in L2. apply L2.
  - intros H. apply upd_total; [exact Hu|]. intros k v Hin. apply (H k v). now apply In_lookup.
Qed.
Lemma merge_default def v x : is_dict def = false ->
  (merge1 def v = Some x <-> v = JDict [] /\ x = def \/ is_dict v = false /\ reads_as v x).
Proof.
  intros Hd. destruct (is_dict v) eqn:E.
  - unfold merge1. rewrite E. destruct v as [| | | | | | | |items]; try discriminate. rewrite update_conf_other by exact Hd. destruct items.
    + split; [intros H; injection H as <-; auto | intros [[_ ->]|[H _]]; [reflexivity | discriminate]].
    + split; [discriminate | intros [[H _]|[H _]]; discriminate].
  - rewrite merge_leaf by exact E. split.
    + intros H. injection H as <-. right. split; [reflexivity | apply conv_reads].
    + intros [[-> _]|[_ H]]; [discriminate|]. now rewrite (reads_conv _ _ H).
Qed.
Lemma field_value_or k def defs u x : lookup k defs = Some def -> is_dict def = false -> (field_of defs u k = Some x <-> value_or k def u x).
Proof.
  intros L Hd. unfold field_of, value_or, get_or_empty. rewrite L. destruct (lookup k u) as [v|].
  - rewrite merge_default by exact Hd. split.
    + intros [[-> ->]|[H1 H2]]; [auto | right; right; eauto].
    + intros [[H _]|[[H ->]|(w & H & H1 & H2)]]; [discriminate | injection H as ->; auto | injection H as <-; auto].
  - split; [intros H; injection H as <-; auto|]. intros [[_ ->]|[[H _]|(w & H & _)]]; [reflexivity | discriminate | discriminate].
Qed.
Lemma merge_required v x : (merge1 (JDict []) v = Some x /\ is_dict x = false <-> is_dict v = false /\ reads_as v x).
Proof.
  destruct (is_dict v) eqn:E.
  - split; [|intros [H _]; discriminate]. intros [H Hx]. destruct v as [| | | | | | | |items]; try discriminate. rewrite merge_dict in H.
    destruct (upd_items items []); [|discriminate]. injection H as <-. discriminate.
  - rewrite merge_leaf by exact E. split.
    + intros [H _]. injection H as <-. split; [reflexivity | apply conv_reads].
    + intros [_ H]. rewrite (reads_conv _ _ H). split; [reflexivity | now apply conv_leaf].
Qed.
Lemma field_required k defs u x : lookup k defs = None -> (field_of defs u k = Some x /\ is_dict x = false <-> required k u x).
Proof.
  intros L. unfold field_of, required, get_or_empty. rewrite L. destruct (lookup k u) as [v|].
  - rewrite merge_required. split; [eauto|]. intros (w & H & ?). injection H as <-. auto.
  - split; [intros [H _]; discriminate|]. intros (w & H & _). discriminate.
Qed.

(** Fields given by a boolean test. *)
Definition tested (s : schema) : list field := map (fun e : string * (bool * (json -> bool)) => (fst e, fst (snd e), fun j => snd (snd e) j = true)) s.
Lemma validate_tested (s : schema) (cfg : dict) : NoDup (keys s) -> NoDup (keys cfg) -> (validate s cfg = true <-> described (tested s) cfg).
Proof.
  intros Hs Hc. apply validate_described; [|exact Hs|exact Hc]. unfold tested. induction s as [|[k [m p]] s IH]; constructor.
  - cbn. repeat split; auto.
  - apply IH. now inversion Hs.
Qed.
(** All the keys mandatory. *)
Lemma validate_all (s : list (string * (json -> bool))) (cfg : dict) : NoDup (map fst s) -> NoDup (keys cfg) ->
  (validate (map (fun e => (fst e, (true, snd e))) s) cfg = true <->
   only (map fst s) cfg /\ forall k p, In (k, p) s -> exists v, lookup k cfg = Some v /\ p v = true).
Proof.
  intros Hs Hc. rewrite validate_tested; [|unfold keys; rewrite map_map; exact Hs | exact Hc].
  unfold described, tested, only. rewrite map_map. cbn [fst snd].
  assert (U : forall k p q, In (k, p) s -> In (k, q) s -> p = q).
  { intros k p q H1 H2. apply (In_lookup k p s Hs) in H1. apply (In_lookup k q s Hs) in H2. congruence. }
  split.
  - intros [H1 H2]. split.
    + intros k Hk. destruct (lookup k cfg) as [v|] eqn:E; [|congruence]. destruct (H1 k v E) as (m & P & Hin & _). apply in_map_iff in Hin.
      destruct Hin as ((k0 & p0) & E0 & Hin). cbn in E0. injection E0 as <- _ _. exact (in_map fst _ _ Hin).
    + intros k p Hin. assert (In (k, true, fun j => p j = true) (map (fun x : string * (json -> bool) => (fst x, true, fun j => snd x j = true)) s)) as Hf.
      { apply in_map_iff. exists (k, p). auto. }
      destruct (lookup k cfg) as [v|] eqn:E; [|exfalso; exact (H2 k _ Hf E)].
      exists v. split; [reflexivity|]. destruct (H1 k v E) as (m & P & Hin2 & HP). apply in_map_iff in Hin2. destruct Hin2 as ((k0 & p0) & E0 & Hin0).
      cbn in E0. injection E0 as <- _ <-. now rewrite (U _ _ _ Hin Hin0).
  - intros [H1 H2]. split.
    + intros k v L. assert (In k (map fst s)) as Hk by (apply H1; congruence). apply in_map_iff in Hk. destruct Hk as ((k0 & p) & E0 & Hin). cbn in E0. subst k0.
      exists true, (fun j => p j = true). split; [apply in_map_iff; exists (k, p); auto|]. destruct (H2 k p Hin) as (w & L2 & P). congruence.
    + intros k P Hin. apply in_map_iff in Hin. destruct Hin as ((k0 & p) & E0 & Hin). cbn in E0. injection E0 as <- _. destruct (H2 _ _ Hin) as (w & L2 & _). congruence.
Qed.

(** * The input *)
Section Input.
  Variable bool_ok : bool.
  Variable can_open_mandatory can_open : json -> bool.
  Variable images_ok : json -> json -> json -> json -> bool.
  Variable image_size : string -> nat * nat.
  Variable open_raster : string -> reader.
  Notation nodata_ok := (nodata_ok bool_ok).
  Notation image_accepted := (image_accepted bool_ok can_open_mandatory can_open).
  Notation disparity_accepted := (disparity_accepted bool_ok can_open).
  Notation image_schema := (image_schema bool_ok can_open_mandatory can_open).
  Notation disparity_axis_schema := (disparity_axis_schema bool_ok can_open).
  Notation input_configuration_schema := (input_configuration_schema bool_ok can_open_mandatory can_open).

  Lemma int_any j : int_such_that bool_ok (fun _ => true) j = true <-> integer bool_ok (fun _ => True) j.
  Proof.
    unfold int_such_that, integer. split.
    - destruct (as_int bool_ok j) as [n|] eqn:E; [|discriminate]. intros _. exists n. split; [now apply as_int_value | exact I].
    - intros (n & H & _). apply as_int_value in H. now rewrite H.
  Qed.
  Lemma special_iff j : np_isnan j || np_isinf j = true <-> one_special j.
  Proof.
    split.
    - revert j. fix F 1. intros [| | | | | | |l|]; cbn; try discriminate; try constructor. destruct l as [|x [|y l]]; try discriminate.
      intros H. constructor. now apply F.
    - induction 1; [reflexivity | reflexivity | exact IHone_special].
  Qed.
  Lemma nodata_iff j : int_such_that bool_ok (fun _ => true) j || np_isnan j || np_isinf j = true <-> nodata_ok j.
  Proof. rewrite <- orb_assoc, orb_true_iff, int_any, special_iff. reflexivity. Qed.

  Definition image_defaults : dict := [("nodata", JInt (-9999)); ("mask", JNull)].
  Definition disparity_defaults : dict := [("init", JInt (-9997)); ("range", JInt 2)].

  Lemma image_iff u img nodata mask : wf (JDict u) ->
    ((exists r, upd_items u image_defaults = Some r /\ validate image_schema r = true /\
       lookup "img" r = Some (JStr img) /\ lookup "nodata" r = Some nodata /\ lookup "mask" r = Some mask) <->
     image_accepted (JDict u) img nodata mask).
  Proof.
    intros Hw. pose proof (wf_dict_inv _ Hw) as [Hu _].
    assert (V : forall r, NoDup (keys r) -> lookup "img" r = Some (JStr img) -> lookup "nodata" r = Some nodata -> lookup "mask" r = Some mask ->
      (validate image_schema r = true <->
       only ["img"; "nodata"; "mask"] r /\ can_open_mandatory (JStr img) = true /\ nodata_ok nodata /\
       (mask = JNull \/ exists s, mask = JStr s) /\ can_open mask = true)).
    { intros r Hr L1 L2 L3.
      change image_schema with (map (fun e : string * (json -> bool) => (fst e, (true, snd e)))
        [("img", fun j => is_str j && can_open_mandatory j);
         ("nodata", fun j => int_such_that bool_ok (fun _ => true) j || np_isnan j || np_isinf j);
         ("mask", fun j => (is_str j || is_null j) && can_open j)]).
      rewrite validate_all; [|cbn; repeat constructor; cbn; intuition discriminate|exact Hr]. cbn [map fst].
      split; intros [H1 H2]; (split; [exact H1|]).
      - destruct (H2 "img" _ (or_introl eq_refl)) as (v1 & A1 & B1). destruct (H2 "nodata" _ (or_intror (or_introl eq_refl))) as (v2 & A2 & B2).
        destruct (H2 "mask" _ (or_intror (or_intror (or_introl eq_refl)))) as (v3 & A3 & B3).
        rewrite L1 in A1. rewrite L2 in A2. rewrite L3 in A3. injection A1 as <-. injection A2 as <-. injection A3 as <-.
        apply andb_true_iff in B1, B3. split; [apply B1|]. split; [now apply nodata_iff|]. split; [|apply B3]. destruct B3 as [B3 _].
        destruct mask; try discriminate; [now left | right; eauto].
      - destruct H2 as (B1 & B2 & B3 & B4). intros k p [E|[E|[E|[]]]]; injection E as <- <-.
        + exists (JStr img). split; [exact L1 | exact B1].
        + exists nodata. split; [exact L2 | now apply nodata_iff].
        + exists mask. split; [exact L3|]. rewrite B4, andb_true_r. destruct B3 as [->|(s & ->)]; reflexivity. }
    split.
    - intros (r & E & Hv & L1 & L2 & L3). assert (Hr : NoDup (keys r)) by (eapply upd_nodup; [exact E|]; repeat constructor; cbn; intuition discriminate).
      rewrite (V r Hr L1 L2 L3) in Hv. destruct Hv as (O & B1 & B2 & B3 & B4). pose proof (upd_fields _ _ _ Hu E) as F.
      exists u. split; [reflexivity|]. split.
      { intros k Hk. apply O. rewrite F. unfold field_of. destruct (lookup k u) as [v|] eqn:Ek; [|congruence].
        assert (P : exists r, upd_items u image_defaults = Some r) by eauto. now apply (proj1 (upd_possible _ _ Hu) P k). }
      rewrite F in L1, L2, L3. split; [|split; [exact B1|split; [|split; [exact B2|split; [|auto]]]]].
      + apply (field_required "img" image_defaults); [reflexivity|]. split; [exact L1 | reflexivity].
      + now apply (field_value_or "nodata" (JInt (-9999)) image_defaults).
      + now apply (field_value_or "mask" JNull image_defaults).
    - intros (u0 & E & O & R1 & B1 & R2 & B2 & R3 & B3 & B4). injection E as <-.
      apply (field_required "img" image_defaults) in R1; [|reflexivity]. destruct R1 as [R1 _].
      apply (field_value_or "nodata" (JInt (-9999)) image_defaults) in R2; try reflexivity.
      apply (field_value_or "mask" JNull image_defaults) in R3; try reflexivity.
      destruct (proj2 (upd_possible u image_defaults Hu)) as (r & Hr).
      { intros k v L. assert (In k ["img"; "nodata"; "mask"]) as Hk by (apply O; congruence).
        destruct Hk as [<-|[<-|[<-|[]]]]; [unfold field_of in R1; rewrite L in R1; congruence | unfold field_of in R2; rewrite L in R2; congruence |
          unfold field_of in R3; rewrite L in R3; congruence]. }
      pose proof (upd_fields _ _ _ Hu Hr) as F. exists r. split; [exact Hr|]. rewrite <- F in R1, R2, R3.
      assert (Hk : NoDup (keys r)) by (eapply upd_nodup; [exact Hr|]; repeat constructor; cbn; intuition discriminate).
      split; [|auto]. apply V; auto. split; [|auto]. intros k Hl. rewrite F in Hl. unfold field_of in Hl. destruct (lookup k u) eqn:Ek; [apply O; congruence|].
      apply lookup_in in Hl. cbn in Hl |- *. intuition.
  Qed.

  (** [defs]: the defaults with an estimation, nothing otherwise. *)
  Lemma disparity_iff (estimation : bool) u init range n : wf (JDict u) ->
    ((exists r, upd_items u (if estimation then disparity_defaults else []) = Some r /\ validate disparity_axis_schema r = true /\
       lookup "init" r = Some init /\ lookup "range" r = Some range /\ int_value bool_ok range n /\ is_dict init = false) <->
     only ["init"; "range"] u /\
     (if estimation then value_or "init" (JInt (-9997)) u init /\ value_or "range" (JInt 2) u range
      else required "init" u init /\ required "range" u range) /\
     (integer bool_ok (fun _ => True) init \/ can_open init = true) /\ int_value bool_ok range n /\ 0 <= n).
  Proof.
    intros Hw. pose proof (wf_dict_inv _ Hw) as [Hu _]. set (defs := if estimation then disparity_defaults else []).
    assert (Hdefs : NoDup (keys defs)) by (unfold defs; destruct estimation; repeat constructor; cbn; intuition discriminate).
    assert (V : forall r, NoDup (keys r) -> lookup "init" r = Some init -> lookup "range" r = Some range -> int_value bool_ok range n ->
      (validate disparity_axis_schema r = true <->
       only ["init"; "range"] r /\ (integer bool_ok (fun _ => True) init \/ can_open init = true) /\ 0 <= n)).
    { intros r Hr L1 L2 Hn.
      change disparity_axis_schema with (map (fun e : string * (json -> bool) => (fst e, (true, snd e)))
        [("init", fun j => int_such_that bool_ok (fun _ => true) j || can_open j); ("range", int_such_that bool_ok (fun z => Z.leb 0 z))]).
      rewrite validate_all; [|cbn; repeat constructor; cbn; intuition discriminate|exact Hr]. cbn [map fst].
      assert (R : int_such_that bool_ok (fun z => Z.leb 0 z) range = true <-> 0 <= n).
      { unfold int_such_that. apply as_int_value in Hn. rewrite Hn. apply Z.leb_le. }
      split; intros [H1 H2]; (split; [exact H1|]).
      - destruct (H2 "init" _ (or_introl eq_refl)) as (v1 & A1 & B1). destruct (H2 "range" _ (or_intror (or_introl eq_refl))) as (v2 & A2 & B2).
        rewrite L1 in A1. rewrite L2 in A2. injection A1 as <-. injection A2 as <-. apply orb_true_iff in B1. rewrite int_any in B1. split; [exact B1 | now apply R].
      - destruct H2 as (B1 & B2). intros k p [E|[E|[]]]; injection E as <- <-.
        + exists init. split; [exact L1|]. apply orb_true_iff. now rewrite int_any.
        + exists range. split; [exact L2 | now apply R]. }
    assert (Hleaf : int_value bool_ok range n -> is_dict range = false) by (intros H; inversion H; reflexivity).
    split.
    - intros (r & E & Hv & L1 & L2 & Hn & Hd). assert (Hr : NoDup (keys r)) by (eapply upd_nodup; [exact E | exact Hdefs]).
      rewrite (V r Hr L1 L2 Hn) in Hv. destruct Hv as (O & B1 & B2). pose proof (upd_fields _ _ _ Hu E) as F. split.
      { intros k Hk. apply O. rewrite F. unfold field_of. destruct (lookup k u) as [v|] eqn:Ek; [|congruence].
        assert (P : exists r, upd_items u defs = Some r) by eauto. now apply (proj1 (upd_possible _ _ Hu) P k). }
      rewrite F in L1, L2. split; [|auto]. unfold defs in L1, L2. destruct estimation.
      + split; [now apply (field_value_or "init" (JInt (-9997)) disparity_defaults) | now apply (field_value_or "range" (JInt 2) disparity_defaults)].
      + split; [now apply (field_required "init" []) | apply (field_required "range" []); [reflexivity|]; split; [exact L2 | auto]].
    - intros (O & R & B1 & Hn & B2).
      assert (F12 : field_of defs u "init" = Some init /\ field_of defs u "range" = Some range /\ is_dict init = false).
      { unfold defs. destruct estimation; destruct R as [R1 R2].
        - split; [now apply (field_value_or "init" (JInt (-9997)) disparity_defaults)|]. split; [now apply (field_value_or "range" (JInt 2) disparity_defaults)|].
          destruct R1 as [[_ ->]|[[_ ->]|(w & _ & Hd & Hr)]]; try reflexivity. rewrite (reads_conv _ _ Hr). now apply conv_leaf.
        - apply (field_required "init" []) in R1; [|reflexivity]. apply (field_required "range" []) in R2; [|reflexivity]. tauto. }
      destruct F12 as (F1 & F2 & Hd).
      destruct (proj2 (upd_possible u defs Hu)) as (r & Hr).
      { intros k v L. assert (In k ["init"; "range"]) as Hk by (apply O; congruence).
        destruct Hk as [<-|[<-|[]]]; [unfold field_of in F1; rewrite L in F1; congruence | unfold field_of in F2; rewrite L in F2; congruence]. }
      pose proof (upd_fields _ _ _ Hu Hr) as F. exists r. split; [exact Hr|]. rewrite <- F in F1, F2.
      assert (Hk : NoDup (keys r)) by (eapply upd_nodup; [exact Hr | exact Hdefs]).
      split; [|auto]. apply V; auto. split; [|auto]. intros k Hl. rewrite F in Hl. unfold field_of in Hl. destruct (lookup k u) eqn:Ek; [apply O; congruence|].
      apply lookup_in in Hl. unfold defs in Hl. destruct estimation; cbn in Hl |- *; intuition.
  Qed.

  (** Defaults of the whole section. *)
  Definition input_defaults (estimation : bool) : dict :=
    [("left", JDict image_defaults); ("right", JDict image_defaults)] ++
    (if estimation then [("col_disparity", JDict disparity_defaults); ("row_disparity", JDict disparity_defaults)] else []).
  Lemma one_section (x : dict) (i : json) : update_conf (JDict [("input", JDict x)]) (JDict [("input", i)]) =
    option_map (fun w => JDict [("input", w)]) (merge1 (JDict x) i).
  Proof.
    rewrite update_conf_dict. cbn [upd_items]. unfold get_or_empty. cbn [lookup String.eqb Ascii.eqb Bool.eqb].
    destruct (merge1 (JDict x) i); reflexivity.
  Qed.
  Lemma complete_fields estimation u input : wf (JDict u) ->
    complete_input estimation (JDict [("input", JDict u)]) = Some (JDict [("input", JDict input)]) ->
    NoDup (keys input) /\ (forall k, lookup k input = field_of (input_defaults estimation) u k) /\
    (forall k v, lookup k u = Some v -> merge1 (get_or_empty k (input_defaults estimation)) v <> None).
  Proof.
    intros Hw H. pose proof (wf_dict_inv _ Hw) as [Hu _]. destruct defaults_ok as (W1 & _ & N1 & _).
    assert (W1' := wf_lookup "input" _ _ W1 eq_refl). assert (N1' := normal_lookup "input" _ _ N1 eq_refl). cbn in W1', N1'.
    unfold complete_input, default_short_configuration_input, default_configuration_disp in H. rewrite one_section, merge_dict in H.
    fold image_defaults in H, W1', N1'. destruct (upd_items u _) as [r1|] eqn:U1 in H; [|discriminate]. cbn [option_map] in H.
    pose proof (upd_fields _ _ _ Hu U1) as F1. assert (K1 : NoDup (keys r1)) by (eapply upd_nodup; [exact U1|]; repeat constructor; cbn; intuition discriminate).
    assert (P1 := proj1 (upd_possible u [("left", JDict image_defaults); ("right", JDict image_defaults)] Hu) (ex_intro _ _ U1)).
    destruct estimation.
    - rewrite one_section, merge_dict in H. fold disparity_defaults in H. destruct (upd_items r1 _) as [r2|] eqn:U2 in H; [|discriminate]. injection H as <-.
      pose proof (upd_fields _ _ _ K1 U2) as F2.
      assert (P2 := proj1 (upd_possible r1 [("col_disparity", JDict disparity_defaults); ("row_disparity", JDict disparity_defaults)] K1) (ex_intro _ _ U2)).
      assert (Wr : wf (JDict r1)). { refine (update_wf _ _ _ Hw W1' _). rewrite update_conf_dict, U1. reflexivity. }
      assert (Nr : normal (JDict r1)). { refine (update_normal _ _ _ Hw N1' _). rewrite update_conf_dict, U1. reflexivity. }
      assert (G : forall k v, lookup k u = Some v -> exists v1, lookup k r1 = Some v1 /\
        merge1 (get_or_empty k [("col_disparity", JDict disparity_defaults); ("row_disparity", JDict disparity_defaults)]) v1 =
        merge1 (get_or_empty k (input_defaults true)) v).
      { intros k v L. pose proof (F1 k) as Fk. unfold field_of in Fk. rewrite L in Fk. destruct (merge1 _ v) as [v1|] eqn:E; [|exfalso; exact (P1 _ _ L E)].
        exists v1. split; [exact Fk|].
        unfold get_or_empty in E |- *. unfold input_defaults. cbn [lookup app] in E |- *.
        destruct (k =? "left") eqn:E1; [apply String.eqb_eq in E1; subst k; cbn [String.eqb Ascii.eqb Bool.eqb]; rewrite E;
          apply merge_empty; [exact (wf_lookup _ _ _ Wr Fk) | exact (normal_lookup _ _ _ Nr Fk)]|].
        destruct (k =? "right") eqn:E2; [apply String.eqb_eq in E2; subst k; cbn [String.eqb Ascii.eqb Bool.eqb]; rewrite E;
          apply merge_empty; [exact (wf_lookup _ _ _ Wr Fk) | exact (normal_lookup _ _ _ Nr Fk)]|].
        destruct (k =? "col_disparity"); [exact (merge_read _ (wf_lookup _ _ _ Hw L) _ _ E)|].
        destruct (k =? "row_disparity"); exact (merge_read _ (wf_lookup _ _ _ Hw L) _ _ E). }
      split; [eapply upd_nodup; [exact U2|]; repeat constructor; cbn; intuition discriminate|]. split.
      + intros k. rewrite F2. unfold field_of at 2. destruct (lookup k u) as [v|] eqn:L.
        * destruct (G k v L) as (v1 & L1 & E). unfold field_of. now rewrite L1, E.
        * pose proof (F1 k) as Fk. unfold field_of in Fk. rewrite L in Fk. unfold field_of. rewrite Fk.
          unfold get_or_empty, input_defaults. cbn [lookup app].
          destruct (k =? "left") eqn:E1; [apply String.eqb_eq in E1; subst k; reflexivity|].
          destruct (k =? "right") eqn:E2; [apply String.eqb_eq in E2; subst k; reflexivity|]. reflexivity.
      + intros k v L. destruct (G k v L) as (v1 & L1 & E). rewrite <- E. exact (P2 _ _ L1).
    - injection H as <-. split; [exact K1|]. unfold input_defaults. rewrite app_nil_r. auto.
  Qed.
  Lemma complete_possible estimation u : wf (JDict u) ->
    (forall k v, lookup k u = Some v -> merge1 (get_or_empty k (input_defaults estimation)) v <> None) ->
    exists input, complete_input estimation (JDict [("input", JDict u)]) = Some (JDict [("input", JDict input)]).
  Proof.
    intros Hw P. pose proof (wf_dict_inv _ Hw) as [Hu _].
    destruct (proj2 (upd_possible u [("left", JDict image_defaults); ("right", JDict image_defaults)] Hu)) as (r1 & U1).
    { intros k v L. specialize (P k v L). unfold get_or_empty, input_defaults in *. cbn [lookup app] in *.
      destruct (k =? "left"); [exact P|]. destruct (k =? "right"); [exact P|].
      destruct (merge_empty_total v (wf_lookup _ _ _ Hw L)) as (w & ->). discriminate. }
    unfold complete_input, default_short_configuration_input, default_configuration_disp. rewrite one_section, merge_dict. fold image_defaults.
    rewrite U1. cbn [option_map]. destruct estimation; [|eauto]. rewrite one_section, merge_dict. fold disparity_defaults.
    assert (K1 : NoDup (keys r1)) by (eapply upd_nodup; [exact U1|]; repeat constructor; cbn; intuition discriminate).
    pose proof (upd_fields _ _ _ Hu U1) as F1.
    destruct (proj2 (upd_possible r1 [("col_disparity", JDict disparity_defaults); ("row_disparity", JDict disparity_defaults)] K1)) as (r2 & ->); [|cbn; eauto].
    intros k v1 L1. rewrite F1 in L1. unfold field_of in L1. destruct (lookup k u) as [v|] eqn:L.
    - specialize (P k v L). unfold get_or_empty, input_defaults in *. cbn [lookup app] in *.
      assert (W1 : wf v1).
      { refine (merge_wf _ _ _ (wf_lookup _ _ _ Hw L) _ L1). destruct defaults_ok as (W1 & _). assert (W1' := wf_lookup "input" _ _ W1 eq_refl). cbn in W1'.
        exact (get_or_empty_wf k _ W1'). }
      destruct (k =? "left") eqn:E1; [apply String.eqb_eq in E1; subst k; cbn [String.eqb Ascii.eqb Bool.eqb]; destruct (merge_empty_total v1 W1) as (w & ->); discriminate|].
      destruct (k =? "right") eqn:E2; [apply String.eqb_eq in E2; subst k; cbn [String.eqb Ascii.eqb Bool.eqb]; destruct (merge_empty_total v1 W1) as (w & ->); discriminate|].
      destruct (k =? "col_disparity"); [now rewrite (merge_read _ (wf_lookup _ _ _ Hw L) _ _ L1)|].
      destruct (k =? "row_disparity"); now rewrite (merge_read _ (wf_lookup _ _ _ Hw L) _ _ L1).
    - unfold get_or_empty. cbn [lookup] in *. destruct (k =? "left") eqn:E1; [injection L1 as <-; apply String.eqb_eq in E1; subst k; cbn; discriminate|].
      destruct (k =? "right") eqn:E2; [injection L1 as <-; apply String.eqb_eq in E2; subst k; cbn; discriminate|]. discriminate.
  Qed.

  (** An image of the completed input. *)
  Lemma image_field estimation u k (Hk : k = "left" \/ k = "right") img nodata mask : wf (JDict u) ->
    ((exists r, field_of (input_defaults estimation) u k = Some (JDict r) /\ validate image_schema r = true /\
       lookup "img" r = Some (JStr img) /\ lookup "nodata" r = Some nodata /\ lookup "mask" r = Some mask) <->
     exists j, lookup k u = Some j /\ image_accepted j img nodata mask).
  Proof.
    intros Hw. assert (D : lookup k (input_defaults estimation) = Some (JDict image_defaults)) by (destruct Hk as [->| ->]; reflexivity).
    unfold field_of, get_or_empty. rewrite D. split.
    - intros (r & E & Hv & L1 & L2 & L3). destruct (lookup k u) as [v|] eqn:L.
      + exists v. split; [reflexivity|]. destruct (is_dict v) eqn:Ed.
        * destruct v as [| | | | | | | |v]; try discriminate. rewrite merge_dict in E. destruct (upd_items v image_defaults) as [r0|] eqn:U; [|discriminate].
          injection E as ->. apply image_iff; [exact (wf_lookup _ _ _ Hw L)|]. exists r. auto.
        * rewrite merge_leaf in E by exact Ed. injection E as E. assert (is_dict (conv v) = false) as X by now apply conv_leaf. rewrite E in X. discriminate.
      + injection E as <-. cbn in L1. discriminate.
    - intros (j & L & H). rewrite L. destruct H as (v & -> & H).
      destruct (proj2 (image_iff v img nodata mask (wf_lookup _ _ _ Hw L))) as (r & U & Hv & L1 & L2 & L3).
      { exists v. auto. }
      exists r. rewrite merge_dict, U. auto.
  Qed.
  Lemma disparity_field estimation u k (Hk : k = "row_disparity" \/ k = "col_disparity") init n : wf (JDict u) ->
    ((exists r range, field_of (input_defaults estimation) u k = Some (JDict r) /\ validate disparity_axis_schema r = true /\
       lookup "init" r = Some init /\ lookup "range" r = Some range /\ int_value bool_ok range n /\ is_dict init = false) <->
     disparity_accepted estimation (lookup k u) init n).
  Proof.
    intros Hw.
    assert (D : lookup k (input_defaults estimation) = (if estimation then Some (JDict disparity_defaults) else None)) by (destruct Hk as [->| ->], estimation; reflexivity).
    set (defs := if estimation then disparity_defaults else []).
    assert (G : get_or_empty k (input_defaults estimation) = JDict defs) by (unfold get_or_empty, defs; rewrite D; now destruct estimation).
    unfold field_of. rewrite G, D. split.
    - intros (r & range & E & Hv & L1 & L2 & Hn & Hd). destruct (lookup k u) as [v|] eqn:L.
      + destruct (is_dict v) eqn:Ed.
        * destruct v as [| | | | | | | |v]; try discriminate. rewrite merge_dict in E. destruct (upd_items v defs) as [r0|] eqn:U; [|discriminate].
          injection E as ->. destruct (proj1 (disparity_iff estimation v init range n (wf_lookup _ _ _ Hw L))) as (A1 & A2 & A3); [exists r; auto 10|].
          exists v, range. auto 10.
        * rewrite merge_leaf in E by exact Ed. injection E as E. assert (is_dict (conv v) = false) as X by now apply conv_leaf. rewrite E in X. discriminate.
      + unfold defs in *. destruct estimation; [|discriminate]. injection E as <-. cbn in L1, L2. injection L1 as <-. injection L2 as <-.
        exists [], (JInt 2). split; [auto|]. split; [intros x; cbn; congruence|]. split; [split; left; auto|]. inversion Hn; subst.
        split; [left; exists (-9997); split; [constructor | exact I]|]. split; [constructor | lia].
    - intros (v & range & [E|(-> & E & ->)] & O & R & B & Hn & H0).
      + rewrite E. destruct (proj2 (disparity_iff estimation v init range n (wf_lookup _ _ _ Hw E))) as (r & U & Hv & L1 & L2 & _ & Hd); [auto 10|].
        exists r, range. rewrite merge_dict. unfold defs. rewrite U. auto 10.
      + rewrite E. destruct R as [R1 R2]. exists disparity_defaults, (JInt 2).
        destruct R1 as [[_ ->]|[[X _]|(w & X & _)]]; try discriminate. destruct R2 as [[_ ->]|[[X _]|(w & X & _)]]; try discriminate.
        cbn. rewrite !orb_true_r || idtac. split; [reflexivity|]. split; [reflexivity|]. auto.
  Qed.

  (** The disparities against the image. *)
  Hypothesis sizes : forall s, (0 < fst (image_size s))%nat /\ (0 < snd (image_size s))%nat.
  Lemma section_iff (input row col lft : dict) img ri rr rn ci cr cn :
    lookup "left" input = Some (JDict lft) -> lookup "img" lft = Some (JStr img) ->
    lookup "row_disparity" input = Some (JDict row) -> lookup "col_disparity" input = Some (JDict col) ->
    lookup "init" row = Some ri -> lookup "range" row = Some rr -> int_value bool_ok rr rn -> 0 <= rn ->
    lookup "init" col = Some ci -> lookup "range" col = Some cr -> int_value bool_ok cr cn -> 0 <= cn ->
    (check_disparity_section image_size open_raster input = true <->
     disparities_inside open_raster (fst (image_size img)) (snd (image_size img)) ri rn ci cn).
  Proof.
    intros L1 L2 L3 L4 R1 R2 Hr R0 C1 C2 Hc C0. unfold check_disparity_section. cbn [get_path]. rewrite L1, L2, L3, L4.
    destruct (sizes img) as [S1 S2]. set (rows := fst (image_size img)) in *. set (cols := snd (image_size img)) in *.
    assert (Er : cfg_disp_of open_raster row = mkCfgDisp (match ri with JInt v => CInt v | JBool b => CInt (Z.b2z b) | JStr s => CFile (open_raster s) | _ => COther end) rn).
    { unfold cfg_disp_of. rewrite R1, R2. f_equal. inversion Hr; reflexivity. }
    assert (Ec : cfg_disp_of open_raster col = mkCfgDisp (match ci with JInt v => CInt v | JBool b => CInt (Z.b2z b) | JStr s => CFile (open_raster s) | _ => COther end) cn).
    { unfold cfg_disp_of. rewrite C1, C2. f_equal. inversion Hc; reflexivity. }
    rewrite Er, Ec. rewrite check_disparity_iff by (cbn; auto). cbn [cd_init cd_range]. unfold disparities_inside, grid_accepted.
    assert (K : forall j z, constant j z <-> match j with JInt v => v = z | JBool b => Z.b2z b = z | _ => False end).
    { intros j z. split; [intros H; inversion H; reflexivity|]. destruct j; try tauto; intros <-; constructor. }
    split.
    - destruct ri, ci; try tauto; try (intros [A B]; left; eexists; eexists; split; [constructor|]; split; [constructor|]; split; assumption).
      intros H. right. exists s, s0. intuition.
    - intros [(r & c & A & B & Hrr & Hcc)|(r & c & -> & -> & A & B)].
      + apply K in A, B. destruct ri; try tauto; destruct ci; try tauto; subst; auto.
      + intuition.
  Qed.

  Lemma input_iff estimation i nodata : wf i ->
    ((exists input r, complete_input estimation (JDict [("input", i)]) = Some (JDict [("input", JDict input)]) /\
       validate [("input", (true, sub_schema input_configuration_schema))] [("input", JDict input)] = true /\
       check_images_of images_ok (JDict input) = true /\ estimation || check_disparity_section image_size open_raster input = true /\
       lookup "right" input = Some (JDict r) /\ lookup "nodata" r = Some nodata) <->
     input_accepted bool_ok can_open_mandatory can_open images_ok image_size open_raster estimation i nodata).
  Proof.
    intros Hw.
    assert (Hone : forall input, validate [("input", (true, sub_schema input_configuration_schema))] [("input", JDict input)] = validate input_configuration_schema input).
    { intros input. unfold validate at 1. cbn. now rewrite !andb_true_r. }
    assert (V : forall input, NoDup (keys input) -> (validate input_configuration_schema input = true <->
      only ["left"; "right"; "col_disparity"; "row_disparity"] input /\
      (exists l, lookup "left" input = Some (JDict l) /\ validate image_schema l = true) /\
      (exists r, lookup "right" input = Some (JDict r) /\ validate image_schema r = true) /\
      (exists c, lookup "col_disparity" input = Some (JDict c) /\ validate disparity_axis_schema c = true) /\
      (exists r, lookup "row_disparity" input = Some (JDict r) /\ validate disparity_axis_schema r = true))).
    { intros input Hi.
      change input_configuration_schema with (map (fun e : string * (json -> bool) => (fst e, (true, snd e)))
        [("left", sub_schema image_schema); ("right", sub_schema image_schema);
         ("col_disparity", sub_schema disparity_axis_schema); ("row_disparity", sub_schema disparity_axis_schema)]).
      rewrite validate_all; [|cbn; repeat constructor; cbn; intuition discriminate|exact Hi]. cbn [map fst].
      assert (X : forall k s, (exists v, lookup k input = Some v /\ sub_schema s v = true) <-> exists l, lookup k input = Some (JDict l) /\ validate s l = true).
      { intros k s. split.
        - intros (v & L & H). destruct v as [| | | | | | | |l]; try discriminate. eauto.
        - intros (l & L & H). eauto. }
      split; intros [H1 H2]; (split; [exact H1|]).
      - rewrite <- !X. split; [apply H2; cbn; auto|]. split; [apply H2; cbn; auto|]. split; [apply H2; cbn; auto|]. apply H2; cbn; auto.
      - destruct H2 as (A & B & C & E). intros k p [Y|[Y|[Y|[Y|[]]]]]; injection Y as <- <-; now apply X. }
    assert (IV : forall r, validate disparity_axis_schema r = true -> exists init range n,
      lookup "init" r = Some init /\ lookup "range" r = Some range /\ int_value bool_ok range n /\ 0 <= n).
    { intros r H. unfold validate in H. apply andb_true_iff in H. destruct H as [H1 H2]. rewrite forallb_forall in H1, H2.
      assert (Y1 := H2 ("init", _) (or_introl eq_refl)). assert (Y2 := H2 ("range", _) (or_intror (or_introl eq_refl))). cbn [fst snd] in Y1, Y2.
      destruct (lookup "init" r) as [init|] eqn:L1; [|discriminate]. destruct (lookup "range" r) as [range|] eqn:L2; [|discriminate].
      specialize (H1 ("range", range) (lookup_In _ _ _ L2)). cbn [fst snd lookup String.eqb Ascii.eqb Bool.eqb CheckConfModel.disparity_axis_schema] in H1.
      unfold int_such_that in H1. destruct (as_int bool_ok range) as [n|] eqn:En; [|discriminate]. apply Z.leb_le in H1. apply as_int_value in En.
      exists init, range, n. auto. }
    assert (IMG : forall r, validate image_schema r = true -> exists img nd mask, lookup "img" r = Some (JStr img) /\ lookup "nodata" r = Some nd /\ lookup "mask" r = Some mask).
    { intros r H. unfold validate in H. apply andb_true_iff in H. destruct H as [H1 H2]. rewrite forallb_forall in H1, H2.
      assert (Y1 := H2 ("img", _) (or_introl eq_refl)). assert (Y2 := H2 ("nodata", _) (or_intror (or_introl eq_refl))).
      assert (Y3 := H2 ("mask", _) (or_intror (or_intror (or_introl eq_refl)))). cbn [fst snd] in Y1, Y2, Y3.
      destruct (lookup "img" r) as [img|] eqn:L1; [|discriminate]. destruct (lookup "nodata" r) as [nd|] eqn:L2; [|discriminate].
      destruct (lookup "mask" r) as [mask|] eqn:L3; [|discriminate].
      specialize (H1 ("img", img) (lookup_In _ _ _ L1)). cbn [fst snd lookup String.eqb Ascii.eqb Bool.eqb CheckConfModel.image_schema] in H1.
      destruct img; try discriminate. exists s, nd, mask. auto. }
    split.
    - intros (input & r & Hc & Hv & Hi & Hd & Lr & Ln). rewrite Hone in Hv.
      assert (Di : is_dict i = true).
      { destruct (is_dict i) eqn:Ei; [reflexivity|]. exfalso. unfold complete_input, default_short_configuration_input, default_configuration_disp in Hc.
        rewrite one_section, merge_leaf in Hc by exact Ei. cbn [option_map] in Hc. assert (X := conv_leaf i Ei).
        destruct estimation; [rewrite one_section, merge_leaf in Hc by exact X; cbn [option_map] in Hc; rewrite conv_conv in Hc|];
          injection Hc as Hc; rewrite Hc in X; discriminate. }
      destruct i as [| | | | | | | |u]; try discriminate. destruct (complete_fields _ _ _ Hw Hc) as (Kn & F & P). pose proof (wf_dict_inv _ Hw) as [Hu _].
      apply (V input Kn) in Hv. destruct Hv as (O & (l & Ll & Vl) & (r0 & Lr0 & Vr) & (c & Lc & Vc) & (ro & Lro & Vro)).
      rewrite Lr in Lr0. injection Lr0 as <-.
      destruct (IMG _ Vl) as (left & lnd & lmask & Li1 & Li2 & Li3). destruct (IMG _ Vr) as (right & rnd & rmask & Ri1 & Ri2 & Ri3). rewrite Ln in Ri2. injection Ri2 as <-.
      destruct (IV _ Vc) as (ci & cr & cn & C1 & C2 & C3 & C4). destruct (IV _ Vro) as (ri & rr & rn & R1 & R2 & R3 & R4).
      destruct (proj1 (image_field estimation u "left" (or_introl eq_refl) left lnd lmask Hw)) as (lj & LL & IL); [exists l; rewrite <- F; auto|].
      destruct (proj1 (image_field estimation u "right" (or_intror eq_refl) right nodata rmask Hw)) as (rj & LR & IR); [exists r; rewrite <- F; auto|].
      assert (Hsec : estimation = false -> disparities_inside open_raster (fst (image_size left)) (snd (image_size left)) ri rn ci cn).
      { intros E. rewrite E in Hd. cbn [orb] in Hd. exact (proj1 (section_iff input ro c l left ri rr rn ci cr cn Ll Li1 Lro Lc R1 R2 R3 R4 C1 C2 C3 C4) Hd). }
      (* the initial values are not dictionaries *)
      assert (Leaf : is_dict ri = false /\ is_dict ci = false).
      { destruct estimation.
        - assert (Y : forall k x init, k = "row_disparity" \/ k = "col_disparity" -> lookup k input = Some (JDict x) -> lookup "init" x = Some init -> is_dict init = false).
          { intros k x init Hk Lx Lxi. rewrite F in Lx. unfold field_of, get_or_empty in Lx.
            assert (D : lookup k (input_defaults true) = Some (JDict disparity_defaults)) by (destruct Hk as [->| ->]; reflexivity). rewrite D in Lx.
            destruct (lookup k u) as [v|] eqn:Lv; [|injection Lx as <-; cbn in Lxi; now injection Lxi as <-].
            destruct (is_dict v) eqn:Ed; [|rewrite merge_leaf in Lx by exact Ed; injection Lx as Lx; assert (X := conv_leaf v Ed); rewrite Lx in X; discriminate].
            destruct v as [| | | | | | | |v]; try discriminate. rewrite merge_dict in Lx. destruct (upd_items v disparity_defaults) as [x0|] eqn:U; [|discriminate]. injection Lx as ->.
            pose proof (wf_dict_inv _ (wf_lookup _ _ _ Hw Lv)) as [Hvk _]. rewrite (upd_fields _ _ _ Hvk U) in Lxi. apply (field_value_or "init" (JInt (-9997)) disparity_defaults) in Lxi; try reflexivity.
            destruct Lxi as [[_ ->]|[[_ ->]|(w & _ & X & Y)]]; try reflexivity. rewrite (reads_conv _ _ Y). now apply conv_leaf. }
          split; [exact (Y "row_disparity" ro ri (or_introl eq_refl) Lro R1) | exact (Y "col_disparity" c ci (or_intror eq_refl) Lc C1)].
        - destruct (Hsec eq_refl) as [(z1 & z2 & A & B & _)|(z1 & z2 & -> & -> & _)]; [inversion A; inversion B; split; reflexivity | split; reflexivity]. }
      exists u, lj, rj, left, right, lnd, lmask, rmask, ri, rn, ci, cn. split; [reflexivity|]. split.
      { intros k Hk. apply O. rewrite F. unfold field_of. destruct (lookup k u) as [v|] eqn:Ek; [|congruence]. now apply P. }
      split; [exact LL|]. split; [exact IL|]. split; [exact LR|]. split; [exact IR|]. split.
      { unfold check_images_of in Hi. cbn [get_path] in Hi. rewrite Ll, Lr, Li1, Ri1, Li3, Ri3 in Hi. exact Hi. }
      split; [apply (disparity_field estimation u "row_disparity" (or_introl eq_refl) ri rn Hw); exists ro, rr; rewrite <- F; repeat split; auto; apply Leaf|].
      split; [apply (disparity_field estimation u "col_disparity" (or_intror eq_refl) ci cn Hw); exists c, cr; rewrite <- F; repeat split; auto; apply Leaf|].
      exact Hsec.
    - intros (u & lj & rj & left & right & lnd & lmask & rmask & ri & rn & ci & cn & -> & O & LL & IL & LR & IR & Hi & Hro & Hco & Hd).
      destruct (proj2 (image_field estimation u "left" (or_introl eq_refl) left lnd lmask Hw)) as (l & Fl & Vl & Li1 & Li2 & Li3); [eauto|].
      destruct (proj2 (image_field estimation u "right" (or_intror eq_refl) right nodata rmask Hw)) as (r & Fr & Vr & Ri1 & Ri2 & Ri3); [eauto|].
      assert (N0 : 0 <= rn /\ 0 <= cn). { destruct Hro as (? & ? & _ & _ & _ & _ & _ & ?), Hco as (? & ? & _ & _ & _ & _ & _ & ?). auto. }
      destruct (proj2 (disparity_field estimation u "row_disparity" (or_introl eq_refl) ri rn Hw) Hro) as (ro & rr & Fro & Vro & R1 & R2 & R3 & _).
      destruct (proj2 (disparity_field estimation u "col_disparity" (or_intror eq_refl) ci cn Hw) Hco) as (c & cr & Fc & Vc & C1 & C2 & C3 & _).
      destruct (complete_possible estimation u Hw) as (input & Hc).
      { intros k v L. assert (In k ["left"; "right"; "col_disparity"; "row_disparity"]) as Hk by (apply O; congruence).
        destruct Hk as [<-|[<-|[<-|[<-|[]]]]]; [unfold field_of in Fl; rewrite L in Fl | unfold field_of in Fr; rewrite L in Fr | unfold field_of in Fc; rewrite L in Fc |
          unfold field_of in Fro; rewrite L in Fro]; congruence. }
      destruct (complete_fields _ _ _ Hw Hc) as (Kn & F & P). rewrite <- F in Fl, Fr, Fro, Fc.
      exists input, r. split; [exact Hc|]. rewrite Hone. split; [|split; [|split; [|auto]]].
      + apply V; [exact Kn|]. split; [|repeat split; eauto]. intros k Hk. rewrite F in Hk. unfold field_of in Hk. destruct (lookup k u) eqn:Ek; [apply O; congruence|].
        apply lookup_in in Hk. unfold input_defaults in Hk. destruct estimation; cbn in Hk |- *; intuition.
      + unfold check_images_of. cbn [get_path]. now rewrite Fl, Fr, Li1, Ri1, Li3, Ri3.
      + destruct estimation; [reflexivity|]. cbn [orb].
        apply (section_iff input ro c l left ri rr rn ci cr cn Fl Li1 Fro Fc R1 R2 R3 (proj1 N0) C1 C2 C3 (proj2 N0)). auto.
  Qed.
End Input.

Section Whole.
  Context {D M : Type}.
  Variable bool_ok : bool.
  Variable pandora_check : dict -> option (json * json * json).
  Hypothesis Hpandora : pandora_contract pandora_check.
  Variable matching_cost_margins refinement_margins : dict -> M.
  Variable disparity_margins : M.
  Variable run_step : callback -> string -> json -> option M -> option json -> option json -> D -> option D.
  Variable can_open_mandatory can_open : json -> bool.
  Variable images_ok : json -> json -> json -> json -> bool.
  Variable image_size : string -> nat * nat.
  Hypothesis sizes : forall s, (0 < fst (image_size s))%nat /\ (0 < snd (image_size s))%nat.
  Variable open_raster : string -> reader.
  Notation est_conf := (est_conf bool_ok).
  Notation mc_conf := (mc_conf pandora_check matching_cost_margins).
  Notation disp_conf := (disp_conf bool_ok disparity_margins).
  Notation ref_conf := (ref_conf bool_ok refinement_margins).
  Notation machine_check := (machine_check bool_ok pandora_check matching_cost_margins refinement_margins disparity_margins run_step).
  Notation check_conf := (check_conf bool_ok pandora_check matching_cost_margins refinement_margins disparity_margins run_step
    can_open_mandatory can_open (check_images_of images_ok) image_size open_raster).
  Notation steps_accepted := (steps_accepted bool_ok pandora_check).

  (** * The pipeline *)
  Lemma est_iff c : wf c -> (est_conf c <> None <-> exists d, c = JDict d /\ described (estimation_fields bool_ok) d).
  Proof.
    intros Hw. unfold CheckConfModel.est_conf. split.
    - destruct c as [| | | | | | | |d]; try congruence. intros H. exists d. split; [reflexivity|]. apply estimation_accepts; [exact (proj1 (wf_dict_inv _ Hw))|].
      destruct (estimation_check_conf bool_ok d); [congruence | now elim H].
    - intros (d & -> & H). apply estimation_accepts in H; [|exact (proj1 (wf_dict_inv _ Hw))]. destruct (estimation_check_conf bool_ok d); [discriminate | congruence].
  Qed.
  Lemma disp_iff c : wf c -> (disp_conf c <> None <-> exists d, c = JDict d /\ described (disparity_fields bool_ok) d).
  Proof.
    intros Hw. unfold CheckConfModel.disp_conf. split.
    - destruct c as [| | | | | | | |d]; try congruence. intros H. exists d. split; [reflexivity|]. apply disparity_accepts; [exact (proj1 (wf_dict_inv _ Hw))|].
      destruct (disparity_check_conf bool_ok d); [congruence | now elim H].
    - intros (d & -> & H). apply disparity_accepts in H; [|exact (proj1 (wf_dict_inv _ Hw))]. destruct (disparity_check_conf bool_ok d); [discriminate | congruence].
  Qed.
  Lemma mc_iff c st w : (exists c' m, mc_conf c = Some (c', st, w, m)) <->
    exists d method, c = JDict d /\ matching_cost_accepted pandora_check d method w /\ match lookup "step" d with Some x => x | None => JList [JInt 1; JInt 1] end = st.
  Proof.
    unfold CheckConfModel.mc_conf. split.
    - intros (c' & m & H). destruct c as [| | | | | | | |d]; try discriminate. destruct (matching_cost_init pandora_check d) as [y|] eqn:E; [|discriminate].
      destruct (matching_cost_result _ _ _ E) as (me & a & b & w' & s & o & H1 & (mt & H2 & ->) & H3 & H4 & H5 & H6 & ->). cbn in H. injection H as _ <- <- _.
      exists d, mt. split; [reflexivity|]. split; [|exact H3]. exists a, b, s, o. auto 10.
    - intros (d & mt & -> & (a & b & s & o & H1 & H2 & H3 & H4 & H5 & H6) & H7).
      destruct (matching_cost_init pandora_check d) as [y|] eqn:E.
      + destruct (matching_cost_result _ _ _ E) as (me & a' & b' & w' & s' & o' & K1 & _ & K3 & _ & _ & K6 & ->). rewrite H3 in K3. injection K3 as <- <-.
        rewrite H6 in K6. injection K6 as <- <- <-. rewrite H3 in H7. subst st. cbn. eauto.
      + exfalso. apply (proj2 (matching_cost_accepts pandora_check d)); [|exact E]. exists (JStr mt), a, b. rewrite H6. repeat split; auto; try discriminate. exists mt. auto.
  Qed.
  Lemma mc_none c : mc_conf c <> None <-> exists st w, exists c' m, mc_conf c = Some (c', st, w, m).
  Proof.
    split.
    - destruct (mc_conf c) as [[[[c' s] w] m]|]; [|congruence]. intros _. exists s, w, c', m. reflexivity.
    - intros (s & w & c' & m & ->). discriminate.
  Qed.
  Lemma ref_iff c st w : wf c -> pair_at_least_one st ->
    (ref_conf c (Some st) (Some w) <> None <-> exists d, c = JDict d /\
       (described (dichotomy_fields bool_ok) d \/ described interpolation_fields d \/ described (optical_flow_fields bool_ok) d /\ odd_window bool_ok w)).
  Proof.
    intros Hw Hst. unfold CheckConfModel.ref_conf. split.
    - destruct c as [| | | | | | | |d]; try congruence. pose proof (proj1 (wf_dict_inv _ Hw)) as Hn. intros H. exists d. split; [reflexivity|].
      assert (R : refinement_init bool_ok (Some st) w d <> None) by (destruct (refinement_init bool_ok (Some st) w d); congruence). clear H.
      unfold refinement_init in R. destruct (lookup "refinement_method" d) as [[| | | | | |s| |]|]; try congruence.
      destruct (s =? "dichotomy"); [left; now apply dichotomy_accepts|]. destruct (s =? "optical_flow"); [right; right; apply optical_flow_accepts in R; tauto|].
      destruct (s =? "interpolation"); [right; left; now apply interpolation_accepts | congruence].
    - intros (d & -> & H). pose proof (proj1 (wf_dict_inv _ Hw)) as Hn.
      assert (R : refinement_init bool_ok (Some st) w d <> None).
      { unfold refinement_init. destruct H as [H|[H|[H Hod]]].
        - rewrite (described_method _ _ _ _ H) by (cbn; intuition discriminate). cbn [String.eqb Ascii.eqb Bool.eqb]. now apply dichotomy_accepts.
        - rewrite (described_method _ _ _ _ H) by (cbn; intuition discriminate). cbn [String.eqb Ascii.eqb Bool.eqb]. now apply interpolation_accepts.
        - rewrite (described_method _ _ _ _ H) by (cbn; intuition discriminate). cbn [String.eqb Ascii.eqb Bool.eqb]. apply optical_flow_accepts; [exact Hn|].
          split; [exact H|]. split; [exact Hod|]. exact Hst. }
      destruct (refinement_init bool_ok (Some st) w d); [discriminate | congruence].
  Qed.
  Lemma mc_pair d method w : matching_cost_accepted pandora_check d method w ->
    pair_at_least_one (match lookup "step" d with Some x => x | None => JList [JInt 1; JInt 1] end).
  Proof. intros (a & b & s & o & _ & _ & -> & Ha & Hb & _). exists a, b. auto. Qed.
  Lemma mc_method d method w method' w' : matching_cost_accepted pandora_check d method w -> matching_cost_accepted pandora_check d method' w' -> method = method' /\ w = w'.
  Proof.
    intros (a & b & s & o & H1 & _ & H3 & _ & _ & H6) (a' & b' & s' & o' & K1 & _ & K3 & _ & _ & K6).
    rewrite H1 in K1. injection K1 as <-. rewrite H3 in K3. injection K3 as <- <-. rewrite H6 in K6. injection K6 as <- <- <-. auto.
  Qed.
  Lemma documented_refinement names : documented names -> In "refinement" names -> In "matching_cost" names.
  Proof.
    intros (e & mc & d & n & ->) H. apply in_app_iff in H. apply in_app_iff. destruct H as [H|H].
    - destruct e; cbn in H; intuition discriminate.
    - right. destruct mc; [now left | destruct H].
  Qed.
  Lemma lookup_key (p : dict) k c : lookup k p = Some c -> In k (map fst p).
  Proof. intros H. apply lookup_in. congruence. Qed.

  Lemma steps_iff p : wf (JDict p) -> documented (keys p) ->
    (configurations_accepted est_conf mc_conf disp_conf ref_conf p <-> exists method, steps_accepted p method).
  Proof.
    intros Hw Hdoc. pose proof (wf_dict_inv _ Hw) as [Hn Hv].
    assert (L : forall k c, In (k, c) p <-> lookup k p = Some c) by (intros k c; split; [now apply In_lookup | apply lookup_In]).
    assert (W : forall k c, lookup k p = Some c -> wf c) by (intros k c H; apply (wf_lookup _ _ _ Hw H)).
    unfold configurations_accepted, step_and_window. split.
    - intros H. destruct (lookup "matching_cost" p) as [c|] eqn:Em.
      + assert (X := proj1 (proj2 (H "matching_cost" c (proj2 (L _ _) Em))) eq_refl). apply mc_none in X. destruct X as (st & w & c' & mg & Ec).
        destruct (proj1 (mc_iff c st w)) as (dc & method & -> & Ha & Hst); [eauto|]. exists (Some method), (Some w).
        rewrite ?Em, ?Ec in H. cbn [fst snd] in H. split; [right; exists dc, method, w; auto|].
        split; [intros c Lc; apply est_iff; [exact (W _ _ Lc)|]; exact (proj1 (H _ _ (proj2 (L _ _) Lc)) eq_refl)|].
        split; [intros c Lc; apply disp_iff; [exact (W _ _ Lc)|]; exact (proj1 (proj2 (proj2 (H _ _ (proj2 (L _ _) Lc)))) eq_refl)|].
        intros c Lc. pose proof (proj2 (proj2 (proj2 (H _ _ (proj2 (L _ _) Lc)))) eq_refl) as R. subst st.
        apply (ref_iff c _ w (W _ _ Lc) (mc_pair _ _ _ Ha)) in R. destruct R as (d & -> & [R|[R|[R Ro]]]); exists d; split; auto. right. right. split; [exact R|]. eauto.
      + exists None, None. split; [left; auto|].
        split; [intros c Lc; apply est_iff; [exact (W _ _ Lc)|]; exact (proj1 (H _ _ (proj2 (L _ _) Lc)) eq_refl)|].
        split; [intros c Lc; apply disp_iff; [exact (W _ _ Lc)|]; exact (proj1 (proj2 (proj2 (H _ _ (proj2 (L _ _) Lc)))) eq_refl)|].
        intros c Lc. exfalso. apply lookup_key, (documented_refinement _ Hdoc), lookup_in in Lc. now apply Lc.
    - intros (method & window & Hmc & He & Hd & Hr) name c Hin. apply L in Hin.
      split; [intros ->; apply est_iff; [exact (W _ _ Hin) | now apply He]|].
      split; [|split; [intros ->; apply disp_iff; [exact (W _ _ Hin) | now apply Hd]|]].
      + intros ->. destruct Hmc as [(X & _)|(dc & mt & w & X & -> & -> & Ha)]; [congruence|]. rewrite Hin in X. injection X as ->. apply mc_none.
        exists (match lookup "step" dc with Some x => x | None => JList [JInt 1; JInt 1] end), w. apply mc_iff. eauto.
      + intros ->. destruct Hmc as [(X & _)|(dc & mt & w & X & -> & -> & Ha)].
        { exfalso. apply lookup_key, (documented_refinement _ Hdoc), lookup_in in Hin. now apply Hin. }
        rewrite X. destruct (proj2 (mc_iff (JDict dc) (match lookup "step" dc with Some x => x | None => JList [JInt 1; JInt 1] end) w)) as (c' & mg & Ec); [eauto|].
        rewrite Ec. cbn [fst snd]. apply ref_iff; [exact (W _ _ Hin) | exact (mc_pair _ _ _ Ha)|].
        destruct (Hr _ Hin) as (d & -> & [R|[R|(R & w' & Ew & Ro)]]); exists d; split; auto. right. right. injection Ew as <-. auto.
  Qed.

  (** * The sections *)
  Notation check_input_section := (check_input_section bool_ok can_open_mandatory can_open (check_images_of images_ok) image_size open_raster).
  Notation input_accepted := (input_accepted bool_ok can_open_mandatory can_open images_ok image_size open_raster).
  Lemma single (k : string) (j : json) : update_conf (JDict []) (JDict [(k, j)]) = option_map (fun x => JDict [(k, x)]) (merge1 (JDict []) j).
  Proof.
    rewrite update_conf_dict. cbn [upd_items]. change (get_or_empty k []) with (JDict []). destruct (merge1 (JDict []) j); reflexivity.
  Qed.
  Lemma input_section_iff user estimation nodata : wf (JDict user) ->
    ((exists ci, check_input_section (get_config_input user) estimation = Some ci /\ get_path ["input"; "right"; "nodata"] (JDict ci) = Some nodata) <->
     exists i, lookup "input" user = Some i /\ input_accepted estimation i nodata).
  Proof.
    intros Hw. unfold get_config_input. destruct (lookup "input" user) as [i|] eqn:Ei.
    2:{ split; [intros (ci & H & _); discriminate | intros (i & H & _); discriminate]. }
    assert (Wi := wf_lookup _ _ _ Hw Ei). transitivity (input_accepted estimation i nodata).
    2:{ split; [eauto|]. intros (i' & E & H). now injection E as <-. }
    rewrite <- (input_iff bool_ok can_open_mandatory can_open images_ok image_size open_raster sizes estimation i nodata Wi).
    unfold CheckConfModel.check_input_section. cbn [lookup String.eqb Ascii.eqb Bool.eqb].
    assert (One : forall e c, complete_input e (JDict [("input", i)]) = Some c -> exists x, c = JDict [("input", x)]).
    { intros e c H. unfold complete_input, default_short_configuration_input, default_configuration_disp in H. rewrite one_section in H.
      destruct (merge1 _ i) as [x|]; [|discriminate]. cbn [option_map] in H. destruct e; [rewrite one_section in H; destruct (merge1 _ x) as [y|]; [|discriminate]|]; injection H as <-; eauto. }
    split.
    - intros (ci & H & Hn). destruct (complete_input estimation (JDict [("input", i)])) as [c|] eqn:Ec; [|discriminate].
      destruct (One _ _ Ec) as (x & ->). destruct (validate _ _) eqn:Ev in H; [|discriminate].
      cbn [lookup String.eqb Ascii.eqb Bool.eqb] in H. destruct x as [| | | | | | | |input]; try discriminate.
      destruct (check_images_of images_ok (JDict input)) eqn:E1; [|discriminate]. cbn [andb] in H.
      destruct (estimation || _) eqn:E2 in H; [|discriminate]. injection H as <-. cbn [get_path lookup String.eqb Ascii.eqb Bool.eqb] in Hn.
      destruct (lookup "right" input) as [[| | | | | | | |r]|] eqn:Er; try discriminate. exists input, r. destruct (lookup "nodata" r) eqn:En; [|discriminate]. auto 10.
    - intros (input & r & -> & -> & E1 & E2 & E3 & E4). cbn [lookup String.eqb Ascii.eqb Bool.eqb]. rewrite E1, E2. cbn [andb]. exists [("input", JDict input)].
      split; [reflexivity|]. cbn [get_path lookup String.eqb Ascii.eqb Bool.eqb]. now rewrite E3, E4.
  Qed.
  Lemma input_section_nodata user estimation ci : check_input_section (get_config_input user) estimation = Some ci ->
    exists nodata, get_path ["input"; "right"; "nodata"] (JDict ci) = Some nodata.
  Proof.
    unfold CheckConfModel.check_input_section. destruct (lookup "input" _); [|discriminate]. destruct (complete_input _ _) as [[| | | | | | | |c]|]; try discriminate.
    destruct (validate _ _) eqn:Ev; [|discriminate]. destruct (lookup "input" c) as [[| | | | | | | |input]|] eqn:El; try discriminate. destruct (_ && _); [|discriminate].
    intros H. injection H as <-. cbn [get_path]. rewrite El.
    unfold validate at 1 in Ev. apply andb_true_iff in Ev. destruct Ev as [Ev _]. rewrite forallb_forall in Ev. specialize (Ev _ (lookup_In _ _ _ El)).
    cbn [fst snd lookup String.eqb Ascii.eqb Bool.eqb] in Ev. unfold sub_schema at 1 in Ev.
    unfold validate at 1 in Ev. apply andb_true_iff in Ev. destruct Ev as [E1 E2]. rewrite forallb_forall in E1, E2.
    assert (Y := E2 ("right", _) (or_intror (or_introl eq_refl))). cbn [fst snd] in Y. destruct (lookup "right" input) as [r|] eqn:Er; [|discriminate].
    specialize (E1 _ (lookup_In _ _ _ Er)). cbn [fst snd lookup String.eqb Ascii.eqb Bool.eqb CheckConfModel.input_configuration_schema] in E1.
    destruct r as [| | | | | | | |r]; try discriminate. cbn [sub_schema] in E1. unfold validate in E1. apply andb_true_iff in E1. destruct E1 as [_ E1]. rewrite forallb_forall in E1.
    specialize (E1 ("nodata", _) (or_intror (or_introl eq_refl))). cbn [fst snd] in E1. cbn [get_path]. destruct (lookup "nodata" r) as [n|]; [eauto | discriminate].
  Qed.
  Lemma roi_section_iff user : wf (JDict user) ->
    ((exists cr, check_roi_section bool_ok (get_roi_config user) = Some cr) <->
     (lookup "ROI" user = None \/ exists j roi, lookup "ROI" user = Some j /\ reads_cfg j (JDict roi) /\ described (roi_fields bool_ok) roi)).
  Proof.
    intros Hw. unfold get_roi_config, check_roi_section. destruct (lookup "ROI" user) as [j|] eqn:Ej.
    2:{ split; [auto | eauto]. }
    assert (Wj := wf_lookup _ _ _ Hw Ej). rewrite single. split.
    - intros (cr & H). right. destruct (merge1 (JDict []) j) as [x|] eqn:Ex; [|discriminate]. cbn [option_map lookup String.eqb Ascii.eqb Bool.eqb] in H.
      destruct x as [| | | | | | | |roi]; try discriminate. destruct (check_roi bool_ok roi) eqn:Ec; [|discriminate]. exists j, roi. split; [reflexivity|].
      split; [now apply reads_merge|]. apply roi_accepts; [|exact Ec]. exact (merge_wf _ _ _ Wj wf_empty Ex).
    - intros [H|(j' & roi & E & Hr & Hd)]; [discriminate|]. injection E as <-. apply (proj2 (reads_merge j Wj _)) in Hr. rewrite Hr.
      cbn [option_map lookup String.eqb Ascii.eqb Bool.eqb]. apply roi_accepts in Hd; [|exact (merge_wf _ _ _ Wj wf_empty Hr)]. rewrite Hd. eauto.
  Qed.
  Lemma expert_iff user : wf (JDict user) ->
    (match lookup "expert_mode" user with None | Some (JDict []) => True | Some j => check_expert_mode_section j <> None end <->
     expert_mode_accepted (lookup "expert_mode" user)).
  Proof.
    intros Hw. unfold expert_mode_accepted.
    assert (Pr : forall j, wf j -> (sub_schema expert_mode_profiling j = true <-> exists f, j = JDict f /\ only ["folder_name"] f /\ exists s, lookup "folder_name" f = Some (JStr s))).
    { intros j Wj. unfold sub_schema. split.
      - destruct j as [| | | | | | | |f]; try discriminate. intros H. exists f. split; [reflexivity|].
        change expert_mode_profiling with (map (fun e : string * (json -> bool) => (fst e, (true, snd e))) [("folder_name", is_str)]) in H.
        apply validate_all in H; [|repeat constructor; cbn; tauto | exact (proj1 (wf_dict_inv _ Wj))]. destruct H as [H1 H2]. split; [exact H1|].
        destruct (H2 "folder_name" is_str (or_introl eq_refl)) as (v & L & Hv). destruct v; try discriminate. eauto.
      - intros (f & -> & O & s & L).
        change expert_mode_profiling with (map (fun e : string * (json -> bool) => (fst e, (true, snd e))) [("folder_name", is_str)]).
        apply validate_all; [repeat constructor; cbn; tauto | exact (proj1 (wf_dict_inv _ Wj))|]. split; [exact O|]. intros k p [E|[]]. injection E as <- <-. eauto. }
    destruct (lookup "expert_mode" user) as [j|] eqn:Ej; [|tauto]. assert (Wj := wf_lookup _ _ _ Hw Ej).
    assert (Main : check_expert_mode_section j <> None <-> exists d f, Some j = Some (JDict d) /\ lookup "profiling" d = Some (JDict f) /\ only ["folder_name"] f /\ exists s, lookup "folder_name" f = Some (JStr s)).
    { unfold check_expert_mode_section. split.
      - destruct j as [| | | | | | | |d]; try congruence. destruct (lookup "profiling" d) as [v|] eqn:Lv; [|congruence].
        destruct (sub_schema _ v) eqn:Es; [|congruence]. intros _. apply Pr in Es; [|exact (wf_lookup _ _ _ Wj Lv)]. destruct Es as (f & -> & O & S). exists d, f. auto.
      - intros (d & f & E & L & O & S). injection E as ->. rewrite L.
        assert (sub_schema expert_mode_profiling (JDict f) = true) as -> by (apply Pr; [exact (wf_lookup _ _ _ Wj L) | eauto]). discriminate. }
    destruct j as [| | | | | | | |[|e0 dj]]; rewrite ?Main; split; intros H; auto; try (right; right; exact H); try (destruct H as [H|[H|H]]; [discriminate | discriminate | exact H]).
  Qed.

  Lemma flag raw p : wf (JDict raw) -> merge1 (JDict []) (JDict raw) = Some (JDict p) -> (forall c, lookup "estimation" p = Some c -> is_dict c = true) ->
    match lookup "estimation" raw with None | Some JNull => false | Some _ => true end = match lookup "estimation" p with Some _ => true | None => false end.
  Proof.
    intros Hw Hm Hd. rewrite merge_dict in Hm. destruct (upd_items raw []) as [r|] eqn:Er; [|discriminate]. injection Hm as ->.
    pose proof (upd_lookup _ _ _ Er (proj1 (wf_dict_inv _ Hw)) "estimation") as L. destruct (lookup "estimation" raw) as [v|] eqn:Ev.
    - destruct L as [L Hnn]. rewrite L in *. destruct (merge1 _ v) as [c|] eqn:Ec; [|congruence]. specialize (Hd c eq_refl).
      destruct v; try reflexivity. cbn in Ec. injection Ec as <-. discriminate.
    - rewrite L. reflexivity.
  Qed.

  Notation accepted := (accepted bool_ok pandora_check can_open_mandatory can_open images_ok image_size open_raster).
  Theorem check_conf_accepts user d : wf (JDict user) -> ((exists m cfg, check_conf user (new_machine d) = (m, Some cfg)) <-> accepted user).
  Proof.
    intros Hw. assert (ND : forall p2 ci nodata, get_path ["input"; "right"; "nodata"] (JDict ci) = Some nodata ->
      (match get_path ["pipeline"; "matching_cost"] (JDict [("pipeline", JDict p2)]) with
       | Some _ => check_right_nodata_condition ci [("pipeline", JDict p2)] | None => true end = true <->
       match lookup "matching_cost" p2 with
       | None => True
       | Some c => ((exists z, nodata = JInt z) \/ (exists b, nodata = JBool b)) \/
           exists x, get_path ["matching_cost_method"] c = Some x /\ is_string "sad" x || is_string "ssd" x = false end)).
    { intros p2 ci nodata Hn. cbn [get_path lookup String.eqb Ascii.eqb Bool.eqb]. destruct (lookup "matching_cost" p2) as [c|] eqn:L; [|tauto].
      unfold check_right_nodata_condition. rewrite Hn. cbn [get_path lookup String.eqb Ascii.eqb Bool.eqb]. rewrite L.
      change (match c with JDict d0 => _ | _ => _ end) with (get_path ["matching_cost_method"] c). split.
      - intros H. destruct nodata; try (left; left; eexists; reflexivity); try (left; right; eexists; reflexivity); right;
          (destruct (get_path ["matching_cost_method"] c) as [x|]; [|discriminate]; exists x; split; [reflexivity | now apply negb_true_iff]).
      - intros [[[z ->]|[b ->]]|(x & Ex & Hx)]; try reflexivity. rewrite Ex, Hx. now destruct nodata. }
    unfold CheckConfModel.check_conf, AcceptSpec.accepted. split.
    - intros (m & cfg & H).
      destruct (lookup "pipeline" user) as [[| | | | | | | |raw]|] eqn:Eraw; try discriminate.
      set (est := match lookup "estimation" raw with None | Some JNull => false | Some _ => true end) in H.
      destruct (check_input_section (get_config_input user) est) as [ci|] eqn:Eci; [|discriminate].
      destruct (check_roi_section _ (get_roi_config user)) as [cr|] eqn:Ecr; [|discriminate].
      destruct (check_pipeline_section _ _ _ _ _ _ user (new_machine d)) as [m' [cp|]] eqn:Ecp; [|discriminate].
      destruct (pipeline_again _ _ _ _ _ _ can_open_mandatory can_open (check_images_of images_ok) image_size open_raster Hpandora user d m' cp Hw Ecp) as (p & p2 & -> & Hp & Hmach & Mg & Np & _).
      unfold get_or_empty in Hp. rewrite Eraw in Hp. assert (Wraw := wf_lookup _ _ _ Hw Eraw). assert (Wp : wf (JDict p)) by exact (merge_wf _ _ _ Wraw wf_empty Hp).
      destruct (input_section_nodata _ _ _ Eci) as (nodata & Hn).
      assert (V := check_conf_verdict est_conf mc_conf disp_conf ref_conf run_step p (new_machine d) 0 eq_refl eq_refl).
      unfold CheckConfModel.machine_check in Hmach. rewrite Hmach in V. destruct (proj1 V eq_refl) as [Hdoc Hacc].
      destruct (proj1 (steps_iff p Wp Hdoc) Hacc) as (method & Hst).
      assert (Flag : est = match lookup "estimation" p with Some _ => true | None => false end).
      { apply (flag raw p Wraw Hp). destruct Hst as (w & _ & He & _). intros c Lc. destruct (He c Lc) as (x & -> & _). reflexivity. }
      destruct (proj1 (input_section_iff user est nodata Hw)) as (i & Li & Hi); [eauto|].
      destruct (match get_path ["pipeline"; "matching_cost"] _ with Some _ => _ | None => true end) eqn:End_ in H; [|discriminate].
      exists raw, p, method, i, nodata. split; [reflexivity|]. split; [now apply reads_merge|]. split; [exact Hdoc|]. split; [exact Hst|]. split; [exact Li|].
      split; [rewrite <- Flag; exact Hi|]. split; [|split].
      + apply (ND p2 ci nodata Hn) in End_. destruct Hst as (w & [(_ & -> & _)|(c & mt & w' & Lc & -> & _ & Hc)] & _); [intros [X|X]; discriminate|].
        pose proof (merged_lookup _ _ _ Mg "matching_cost") as ML. rewrite Lc in ML. destruct ML as (c' & c2 & L2 & _ & _ & _ & _ & _ & _ & _ & _ & Hme).
        rewrite L2 in End_. destruct End_ as [X|(x & Ex & Hx)]; [intros _; exact X|]. rewrite (Hme eq_refl) in Ex. destruct Hc as (? & ? & ? & ? & Hc & _).
        cbn [get_path] in Ex. rewrite Hc in Ex. injection Ex as <-. intros [X|X]; injection X as ->; discriminate.
      + apply roi_section_iff; eauto.
      + apply expert_iff; [exact Hw|]. destruct (lookup "expert_mode" user) as [j|]; [|exact I].
        destruct j as [| | | | | | | |[|e0 dj]]; try exact I; (destruct (check_expert_mode_section _) eqn:Ece in H |- *; [discriminate | discriminate]).
    - intros (raw & p & method & i & nodata & Eraw & Hp & Hdoc & Hst & Li & Hi & Hnd & Hroi & Hex).
      assert (Wraw := wf_lookup _ _ _ Hw Eraw). apply (proj2 (reads_merge _ Wraw _)) in Hp. assert (Wp : wf (JDict p)) by exact (merge_wf _ _ _ Wraw wf_empty Hp).
      rewrite Eraw.
      assert (Flag : match lookup "estimation" raw with None | Some JNull => false | Some _ => true end = match lookup "estimation" p with Some _ => true | None => false end).
      { apply (flag raw p Wraw Hp). destruct Hst as (w & _ & He & _). intros c Lc. destruct (He c Lc) as (x & -> & _). reflexivity. }
      rewrite Flag. destruct (proj2 (input_section_iff user (match lookup "estimation" p with Some _ => true | None => false end) nodata Hw)) as (ci & -> & Hn); [eauto|].
      destruct (proj2 (roi_section_iff user Hw) Hroi) as (cr & ->).
      assert (V := check_conf_verdict est_conf mc_conf disp_conf ref_conf run_step p (new_machine d) 0 eq_refl eq_refl).
      assert (Hacc : configurations_accepted est_conf mc_conf disp_conf ref_conf p) by (apply steps_iff; eauto).
      apply (fun x y => proj2 V (conj x y)) in Hacc; [|exact Hdoc].
      destruct (MachineModel.check_conf est_conf mc_conf disp_conf ref_conf run_step p (new_machine d)) as [m v] eqn:Em. cbn [snd] in Hacc. subst v.
      destruct (pipeline_section bool_ok pandora_check matching_cost_margins refinement_margins disparity_margins run_step can_open_mandatory can_open (check_images_of images_ok) image_size open_raster Hpandora user d m p Hw) as (p2 & -> & Mg & _ & _);
        [unfold get_or_empty; now rewrite Eraw | congruence | exact Em |].
      assert (Nd : match get_path ["pipeline"; "matching_cost"] (JDict [("pipeline", JDict p2)]) with
        | Some _ => check_right_nodata_condition ci [("pipeline", JDict p2)] | None => true end = true).
      { apply (ND p2 ci nodata Hn). pose proof (merged_lookup _ _ _ Mg "matching_cost") as ML.
        destruct Hst as (w & [(Lc & _)|(c & mt & w' & Lc & -> & _ & Hc)] & _); rewrite Lc in ML; [now rewrite ML|].
        destruct ML as (c' & c2 & L2 & _ & _ & _ & _ & _ & _ & _ & _ & Hme). rewrite L2, (Hme eq_refl). destruct Hc as (? & ? & ? & ? & Hc & Hin & _).
        cbn [get_path]. rewrite Hc. destruct Hin as [<-|[<-|[<-|[<-|[]]]]]; [left; apply Hnd; now right | left; apply Hnd; now left | right; eexists; split; reflexivity ..]. }
      rewrite Nd. apply expert_iff in Hex; [|exact Hw]. destruct (lookup "expert_mode" user) as [j|]; [|eauto].
      destruct j as [| | | | | | | |[|e0 dj]]; try (eexists; eexists; reflexivity); (destruct (check_expert_mode_section _) eqn:Ece in Hex |- *; [eexists; eexists; reflexivity | congruence]).
  Qed.
End Whole.
