(** Proofs about the configuration. *)
From Coq Require Import List String Bool ZArith QArith Lia.
From Verif Require Import Base.Json Model.ConfigModel Spec.ConfigSpec.
Import ListNotations.
Open Scope Z_scope.
Open Scope string_scope.
Open Scope list_scope.

(** * update_conf *)
Definition merge1 (d v : json) : option json := if is_dict v then update_conf d v else Some (conv v).
Fixpoint upd_items (items cfg : dict) : option dict :=
  match items with
  | [] => Some cfg
  | (k, v) :: r => match merge1 (get_or_empty k cfg) v with Some w => upd_items r (assign k w cfg) | None => None end
  end.

Lemma update_conf_dict cfg items : update_conf (JDict cfg) (JDict items) = option_map JDict (upd_items items cfg).
Proof.
  cbn [update_conf]. revert cfg. induction items as [|[k v] r IH]; intros cfg; [reflexivity|].
  cbn [upd_items]. unfold merge1. destruct v; cbn [is_dict conv]; try (rewrite IH; reflexivity).
  destruct (update_conf _ _); [apply IH | reflexivity].
Qed.
Lemma update_conf_other def items : is_dict def = false ->
  update_conf def (JDict items) = match items with [] => Some def | _ => None end.
Proof. destruct def; cbn; intros; try discriminate; reflexivity. Qed.
Lemma update_conf_leaf def u : is_dict u = false -> update_conf def u = None.
Proof. destruct u; cbn; intros; try discriminate; reflexivity. Qed.

Lemma get_assign_other k k' w cfg : k <> k' -> get_or_empty k (assign k' w cfg) = get_or_empty k cfg.
Proof.
  intros H. unfold get_or_empty. rewrite lookup_assign. destruct (k =? k') eqn:E; [|reflexivity].
  apply String.eqb_eq in E. contradiction.
Qed.

Lemma upd_lookup items : forall cfg res, upd_items items cfg = Some res -> NoDup (keys items) ->
  forall k, match lookup k items with
            | None => lookup k res = lookup k cfg
            | Some v => lookup k res = merge1 (get_or_empty k cfg) v /\ merge1 (get_or_empty k cfg) v <> None
            end.
Proof.
  induction items as [|[a v] r IH]; intros cfg res H Hn k; cbn in *; [now injection H as <-|].
  inversion Hn as [|? ? Ha Hr]; subst.
  destruct (merge1 (get_or_empty a cfg) v) as [w|] eqn:E; [|discriminate].
  specialize (IH _ _ H Hr k). destruct (k =? a) eqn:Ek.
  - apply String.eqb_eq in Ek. subst a. rewrite lookup_none in IH by exact Ha.
    rewrite lookup_assign, String.eqb_refl in IH. rewrite E. split; [exact IH | discriminate].
  - apply String.eqb_neq in Ek. destruct (lookup k r) as [v0|].
    + now rewrite get_assign_other in IH.
    + rewrite lookup_assign in IH. now apply String.eqb_neq in Ek; rewrite Ek in IH.
Qed.

Lemma conv_reads j : reads_as j (conv j).
Proof.
  destruct j; try (apply reads_same; discriminate). cbn.
  destruct (s =? "NaN") eqn:E1; [apply String.eqb_eq in E1; subst; constructor|].
  destruct (s =? "inf") eqn:E2; [apply String.eqb_eq in E2; subst; constructor|].
  destruct (s =? "-inf") eqn:E3; [apply String.eqb_eq in E3; subst; constructor|].
  apply String.eqb_neq in E1, E2, E3. apply reads_same; congruence.
Qed.
Lemma reads_conv j j' : reads_as j j' -> j' = conv j.
Proof.
  intros H. inversion H; subst; try reflexivity. destruct j'; try reflexivity. cbn.
  destruct (s =? "NaN") eqn:E1; [apply String.eqb_eq in E1; subst; congruence|].
  destruct (s =? "inf") eqn:E2; [apply String.eqb_eq in E2; subst; congruence|].
  destruct (s =? "-inf") eqn:E3; [apply String.eqb_eq in E3; subst; congruence|]. reflexivity.
Qed.
Lemma conv_conv j : conv (conv j) = conv j.
Proof.
  destruct j; try reflexivity. cbn. destruct (s =? "NaN") eqn:E1; [reflexivity|].
  destruct (s =? "inf") eqn:E2; [reflexivity|]. destruct (s =? "-inf") eqn:E3; [reflexivity|].
  cbn. now rewrite E1, E2, E3.
Qed.
Lemma conv_leaf j : is_dict j = false -> is_dict (conv j) = false.
Proof.
  destruct j; cbn; auto. destruct (s =? "NaN"); [auto|]. destruct (s =? "inf"); [auto|]. destruct (s =? "-inf"); auto.
Qed.

Lemma wf_lookup k v d : wf (JDict d) -> lookup k d = Some v -> wf v.
Proof. intros H Hl. apply wf_dict_inv in H. destruct H as [_ H]. eapply H, lookup_In, Hl. Qed.

(** Every value of the user is kept. *)
Lemma update_keeps p : forall d u r v, wf u -> update_conf d u = Some r -> get_path p u = Some v -> is_dict v = false ->
  get_path p r = Some (conv v).
Proof.
  induction p as [|k p IH]; intros d u r v Hw H Hg Hv.
  - cbn in Hg. injection Hg as <-. now rewrite update_conf_leaf in H by auto.
  - destruct u as [| | | | | | | |items]; try discriminate. cbn [get_path] in Hg.
    destruct (lookup k items) as [v0|] eqn:El; [|discriminate].
    destruct d as [| | | | | | | |cfg]; try (rewrite update_conf_other in H by auto; destruct items; discriminate).
    rewrite update_conf_dict in H. destruct (upd_items items cfg) as [res|] eqn:E; [|discriminate]. injection H as <-.
    pose proof (upd_lookup items cfg res E (proj1 (wf_dict_inv _ Hw)) k) as L. rewrite El in L. destruct L as [L N].
    cbn [get_path]. rewrite L. unfold merge1 in *. destruct (is_dict v0) eqn:Ed.
    + destruct (update_conf (get_or_empty k cfg) v0) as [w|] eqn:Eu; [|congruence].
      apply (IH (get_or_empty k cfg) v0 w v); auto. exact (wf_lookup _ _ _ Hw El).
    + destruct p as [|k' p]; [cbn in *; congruence|]. destruct v0; discriminate.
Qed.

(** Only keys of the defaults are added. *)
Lemma update_adds p : forall d u r, wf u -> update_conf d u = Some r -> get_path p r <> None ->
  get_path p u <> None \/ get_path p d <> None.
Proof.
  induction p as [|k p IH]; intros d u r Hw H Hr; [left; discriminate|].
  destruct u as [| | | | | | | |items]; try discriminate.
  destruct d as [| | | | | | | |cfg]; try (rewrite update_conf_other in H by auto; destruct items; [|discriminate]; injection H as <-; now right).
  rewrite update_conf_dict in H. destruct (upd_items items cfg) as [res|] eqn:E; [|discriminate]. injection H as <-.
  pose proof (upd_lookup items cfg res E (proj1 (wf_dict_inv _ Hw)) k) as L. cbn [get_path] in *.
  destruct (lookup k items) as [v0|] eqn:El.
  - destruct L as [L N]. rewrite L in Hr. unfold merge1 in *. destruct (is_dict v0) eqn:Ed.
    + destruct (update_conf (get_or_empty k cfg) v0) as [w|] eqn:Eu; [|congruence].
      destruct (IH _ v0 w (wf_lookup _ _ _ Hw El) Eu Hr) as [G|G]; [now left|].
      unfold get_or_empty in G. destruct (lookup k cfg); [now right|].
      destruct p as [|k' p]; [left; discriminate|]. cbn in G. congruence.
    + left. destruct p as [|k' p]; [discriminate|]. cbn in Hr. pose proof (conv_leaf _ Ed). destruct (conv v0); congruence || discriminate.
  - rewrite L in Hr. now right.
Qed.

(** Where the user wrote nothing, the default. *)
Lemma update_default p : forall d u r, wf u -> update_conf d u = Some r -> get_path p u = None ->
  (forall q v, strict_prefix q p -> get_path q u = Some v -> is_dict v = true) ->
  get_path p r = get_path p d.
Proof.
  induction p as [|k p IH]; intros d u r Hw H Hu Hp; [discriminate|].
  destruct u as [| | | | | | | |items]; try discriminate.
  destruct d as [| | | | | | | |cfg]; try (rewrite update_conf_other in H by auto; destruct items; [|discriminate]; now injection H as <-).
  rewrite update_conf_dict in H. destruct (upd_items items cfg) as [res|] eqn:E; [|discriminate]. injection H as <-.
  pose proof (upd_lookup items cfg res E (proj1 (wf_dict_inv _ Hw)) k) as L. cbn [get_path] in *.
  destruct (lookup k items) as [v0|] eqn:El.
  - destruct L as [L N]. rewrite L. unfold merge1 in *.
    destruct p as [|k' p]; [discriminate|].
    assert (Ed : is_dict v0 = true).
    { apply (Hp [k]); [exists k', p; reflexivity|]. cbn. now rewrite El. }
    rewrite Ed in *. destruct (update_conf (get_or_empty k cfg) v0) as [w|] eqn:Eu; [|congruence].
    rewrite (IH _ v0 w (wf_lookup _ _ _ Hw El) Eu Hu).
    + unfold get_or_empty. destruct (lookup k cfg); reflexivity.
    + intros q v (k2 & r2 & Hq) Hv. apply (Hp (k :: q)); [exists k2, r2; cbn; now rewrite Hq|]. cbn. now rewrite El.
  - now rewrite L.
Qed.

(** ** Applying it again *)
Lemma assign_middle (r1 d2 : dict) k x v : ~ In k (keys r1) -> assign k v (r1 ++ (k, x) :: d2) = r1 ++ (k, v) :: d2.
Proof.
  induction r1 as [|[a y] r1 IH]; cbn; intros H; [now rewrite String.eqb_refl|].
  destruct (k =? a) eqn:E; [apply String.eqb_eq in E; subst; tauto|]. rewrite IH; tauto.
Qed.
Lemma assign_end (r1 : dict) k v : ~ In k (keys r1) -> assign k v r1 = r1 ++ [(k, v)].
Proof.
  induction r1 as [|[a y] r1 IH]; cbn; intros H; [reflexivity|].
  destruct (k =? a) eqn:E; [apply String.eqb_eq in E; subst; tauto|]. rewrite IH; tauto.
Qed.
Lemma lookup_app_none {A} k (r1 d2 : list (string * A)) : ~ In k (keys r1) -> lookup k (r1 ++ d2) = lookup k d2.
Proof.
  induction r1 as [|[a y] r1 IH]; cbn; intros H; [reflexivity|].
  destruct (k =? a) eqn:E; [apply String.eqb_eq in E; subst; tauto|]. apply IH. tauto.
Qed.

Lemma upd_fixpoint r2 : forall r1 d2 extra, NoDup (keys (r1 ++ r2)) -> keys r2 = keys d2 ++ extra ->
  (forall k v, In (k, v) r2 -> merge1 (get_or_empty k d2) v = Some v) ->
  upd_items r2 (r1 ++ d2) = Some (r1 ++ r2).
Proof.
  induction r2 as [|[k v] r2 IH]; intros r1 d2 extra Hn Hk Hf; cbn [upd_items].
  - destruct d2; [reflexivity | discriminate].
  - assert (Hin : ~ In k (keys r1)).
    { unfold keys in *. rewrite map_app in Hn. cbn in Hn. apply NoDup_remove_2 in Hn. intros H. apply Hn, in_or_app. now left. }
    assert (G : get_or_empty k (r1 ++ d2) = get_or_empty k d2).
    { unfold get_or_empty. now rewrite lookup_app_none. }
    rewrite G, (Hf k v) by now left.
    assert (Hr : r1 ++ (k, v) :: r2 = (r1 ++ [(k, v)]) ++ r2) by now rewrite <- app_assoc.
    destruct d2 as [|[k' x] d2].
    + rewrite app_nil_r, assign_end by auto. rewrite Hr. rewrite Hr in Hn.
      replace (upd_items r2 (r1 ++ [(k, v)])) with (upd_items r2 ((r1 ++ [(k, v)]) ++ [])) by now rewrite app_nil_r.
      apply (IH _ [] (keys r2)); auto. intros; apply Hf; now right.
    + cbn in Hk. injection Hk as <- Hk. rewrite assign_middle by auto.
      replace (r1 ++ (k, v) :: d2) with ((r1 ++ [(k, v)]) ++ d2) by now rewrite <- app_assoc.
      rewrite Hr. rewrite Hr in Hn. apply (IH _ d2 extra); auto.
      intros k0 v0 H0. rewrite <- (Hf k0 v0) by now right. f_equal. unfold get_or_empty. cbn [lookup].
      destruct (k0 =? k) eqn:E; [|reflexivity]. apply String.eqb_eq in E. subst k0. exfalso.
      rewrite <- app_assoc in Hn. unfold keys in Hn. rewrite map_app in Hn. cbn in Hn. apply NoDup_remove_2 in Hn.
      apply Hn, in_or_app. right. apply in_map_iff. now exists (k, v0).
Qed.

Lemma upd_fixpoint0 r d extra : NoDup (keys r) -> keys r = keys d ++ extra ->
  (forall k v, In (k, v) r -> merge1 (get_or_empty k d) v = Some v) -> upd_items r d = Some r.
Proof. exact (upd_fixpoint r [] d extra). Qed.

Lemma keys_assign k v (d : dict) : keys (assign k v d) = keys d \/ (~ In k (keys d) /\ keys (assign k v d) = keys d ++ [k]).
Proof.
  unfold keys. induction d as [|[a x] d IH]; cbn; [right; auto|].
  destruct (k =? a) eqn:E; [now left|]. cbn. destruct IH as [IH | [H IH]]; rewrite IH; [now left|].
  right. split; [|reflexivity]. intros [->|]; [now rewrite String.eqb_refl in E | auto].
Qed.
Lemma upd_keys items : forall cfg res, upd_items items cfg = Some res -> exists extra, keys res = keys cfg ++ extra.
Proof.
  induction items as [|[k v] r IH]; intros cfg res H; cbn in H.
  - injection H as <-. exists []. now rewrite app_nil_r.
  - destruct (merge1 _ _) as [w|]; [|discriminate]. apply IH in H. destruct H as [e He].
    destruct (keys_assign k w cfg) as [E|[_ E]]; rewrite E in He; [eauto|].
    exists (k :: e). now rewrite He, <- app_assoc.
Qed.
Lemma upd_nodup items : forall cfg res, upd_items items cfg = Some res -> NoDup (keys cfg) -> NoDup (keys res).
Proof.
  induction items as [|[k v] r IH]; intros cfg res H Hn; cbn in H.
  - now injection H as <-.
  - destruct (merge1 _ _) as [w|]; [|discriminate]. apply IH in H; auto. now apply assign_nodup.
Qed.

Lemma normal_conv p v j : normal j -> get_path p j = Some v -> conv v = v.
Proof. intros Hn Hg. symmetry. now apply reads_conv, (Hn p). Qed.
Lemma normal_lookup k v d : normal (JDict d) -> lookup k d = Some v -> normal v.
Proof. intros Hn Hl p w Hw. apply (Hn (k :: p)). cbn. now rewrite Hl. Qed.
Lemma normal_empty : normal (JDict []).
Proof. intros [|k p] v H; cbn in H; [injection H as <-; apply reads_same; discriminate | discriminate]. Qed.

Lemma update_self j : is_dict j = true -> wf j -> normal j -> update_conf j j = Some j.
Proof.
  induction j as [j Hj|d IH] using json_dict_ind; [congruence|]. intros _ Hw Hn.
  pose proof (wf_dict_inv _ Hw) as [Hd Hv].
  rewrite update_conf_dict. rewrite (upd_fixpoint0 d d []); [reflexivity|exact Hd|now rewrite app_nil_r|].
  intros k v Hin. pose proof (In_lookup _ _ _ Hd Hin) as Hl. unfold get_or_empty. rewrite Hl. unfold merge1.
  destruct (is_dict v) eqn:E.
  - apply (IH k); auto; [eauto | exact (normal_lookup _ _ _ Hn Hl)].
  - now rewrite (normal_conv [] v v (normal_lookup _ _ _ Hn Hl)).
Qed.

Lemma update_again u : forall d r, wf u -> wf d -> normal d -> is_dict d = true ->
  update_conf d u = Some r -> is_dict r = true /\ update_conf d r = Some r.
Proof.
  induction u as [u Hu|items IH] using json_dict_ind; intros d r Hw Hwd Hn Hd H.
  - now rewrite update_conf_leaf in H.
  - destruct d as [| | | | | | | |cfg]; try discriminate. pose proof (wf_dict_inv _ Hwd) as [Hcd Hcv].
    pose proof (wf_dict_inv _ Hw) as [Hid Hiv].
    rewrite update_conf_dict in H. destruct (upd_items items cfg) as [res|] eqn:E; [|discriminate]. injection H as <-.
    split; [reflexivity|]. rewrite update_conf_dict.
    destruct (upd_keys _ _ _ E) as [extra He].
    assert (Hr : NoDup (keys res)) by exact (upd_nodup _ _ _ E Hcd).
    rewrite (upd_fixpoint0 res cfg extra); [reflexivity|exact Hr|exact He|].
    intros k v Hin. pose proof (In_lookup _ _ _ Hr Hin) as Hl.
    pose proof (upd_lookup items cfg res E Hid k) as L. rewrite Hl in L.
    assert (Hg : wf (get_or_empty k cfg) /\ normal (get_or_empty k cfg)).
    { unfold get_or_empty. destruct (lookup k cfg) as [x|] eqn:Ex.
      - split; [exact (wf_lookup _ _ _ Hwd Ex) | exact (normal_lookup _ _ _ Hn Ex)].
      - split; [constructor; [constructor | intros ? ? []] | apply normal_empty]. }
    destruct Hg as [Hg1 Hg2].
    destruct (lookup k items) as [v0|] eqn:Ei.
    + destruct L as [L _]. unfold merge1 in L. destruct (is_dict v0) eqn:Ed.
      * destruct (is_dict (get_or_empty k cfg)) eqn:Eg.
        -- symmetry in L.
           destruct (IH k v0 (lookup_In _ _ _ Ei) (get_or_empty k cfg) v (Hiv _ _ (lookup_In _ _ _ Ei)) Hg1 Hg2 Eg L) as [H1 H2].
           unfold merge1. now rewrite H1.
        -- destruct v0 as [| | | | | | | |it]; try discriminate. rewrite update_conf_other in L by auto.
           destruct it; [|discriminate]. injection L as ->. unfold merge1. rewrite Eg.
           now rewrite (normal_conv [] _ _ Hg2 eq_refl).
      * injection L as ->. unfold merge1. rewrite (conv_leaf _ Ed). now rewrite conv_conv.
    + symmetry in L. unfold get_or_empty in *. rewrite L in *. unfold merge1. destruct (is_dict v) eqn:Ed.
      * now apply update_self.
      * now rewrite (normal_conv [] v v Hg2 eq_refl).
Qed.

(** * Descriptions of dictionaries *)
Definition matches (s : string * (bool * (json -> bool))) (f : field) : Prop :=
  fst s = fst (fst f) /\ fst (snd s) = snd (fst f) /\ (forall j, snd (snd s) j = true <-> snd f j).

Lemma matches_lookup s fs k : Forall2 matches s fs -> forall m p, lookup k s = Some (m, p) ->
  exists P, In (k, m, P) fs /\ (forall j, p j = true <-> P j).
Proof.
  induction 1 as [|[k0 [m0 p0]] [[k1 m1] P1] s fs (H1 & H2 & H3) HF IH]; intros m p Hl; [discriminate|]. cbn in *. subst.
  destruct (k =? k1) eqn:E.
  - apply String.eqb_eq in E. subst. injection Hl as <- <-. exists P1. auto.
  - destruct (IH m p Hl) as (P & HP & HQ). eauto.
Qed.
Lemma matches_in s fs : Forall2 matches s fs -> NoDup (keys s) -> forall k m P, In (k, m, P) fs ->
  exists p, lookup k s = Some (m, p) /\ In (k, (m, p)) s /\ (forall j, p j = true <-> P j).
Proof.
  induction 1 as [|[k0 [m0 p0]] [[k1 m1] P1] s fs (H1 & H2 & H3) HF IH]; intros Hn k m P Hin; [destruct Hin|]. cbn in *. subst.
  inversion Hn as [|? ? Ha Hb]; subst. destruct Hin as [E|Hin].
  - injection E as <- <- <-. exists p0. rewrite String.eqb_refl. auto.
  - destruct (IH Hb k m P Hin) as (p & HP & HQ & HR). exists p. destruct (k =? k1) eqn:E; [|auto].
    apply String.eqb_eq in E. subst. exfalso. apply Ha, in_map_iff. now exists (k1, (m, p)).
Qed.

Lemma validate_described s fs cfg : Forall2 matches s fs -> NoDup (keys s) -> NoDup (keys cfg) ->
  (validate s cfg = true <-> described fs cfg).
Proof.
  intros HF Hs Hc. unfold validate, described. rewrite andb_true_iff, !forallb_forall. split; intros [H1 H2]; split.
  - intros k v Hl. specialize (H1 (k, v) (lookup_In _ _ _ Hl)). cbn in H1.
    destruct (lookup k s) as [[m p]|] eqn:E; [|discriminate].
    destruct (matches_lookup _ _ _ HF _ _ E) as (P & HP & HQ). exists m, P. split; [auto|]. now apply HQ.
  - intros k P Hin. destruct (matches_in _ _ HF Hs _ _ _ Hin) as (p & Hl & Hp & _).
    specialize (H2 _ Hp). cbn in H2. destruct (lookup k cfg); [discriminate | congruence].
  - intros [k v] Hin. cbn. destruct (H1 k v (In_lookup _ _ _ Hc Hin)) as (m & P & HP & Hv).
    destruct (matches_in _ _ HF Hs _ _ _ HP) as (p & Hl & _ & Hp). rewrite Hl. now apply Hp.
  - intros [k [m p]] Hin. cbn. destruct m; [|reflexivity].
    destruct (matches_lookup _ _ k HF true p (In_lookup _ _ _ Hs Hin)) as (P & HP & _).
    specialize (H2 k P HP). destruct (lookup k cfg); congruence.
Qed.

(** A key with a default is optional. *)
Lemma described_default (fs1 fs2 : list field) k (P : json -> Prop) v (cfg : dict) : P v -> ~ In k (map (fun f : field => fst (fst f)) (fs1 ++ fs2)) ->
  (described (fs1 ++ (k, true, P) :: fs2) (set_default k v cfg) <-> described (fs1 ++ (k, false, P) :: fs2) cfg).
Proof.
  intros HP Hk.
  assert (L : forall k', lookup k' (set_default k v cfg) =
                match lookup k' cfg with Some x => Some x | None => if k' =? k then Some v else None end).
  { intros k'. unfold set_default. destruct (lookup k cfg) eqn:E.
    - destruct (lookup k' cfg) eqn:E'; [reflexivity|]. destruct (k' =? k) eqn:Ek; [|reflexivity].
      apply String.eqb_eq in Ek. congruence.
    - rewrite lookup_assign. destruct (k' =? k) eqn:Ek; [|now destruct (lookup k' cfg)].
      apply String.eqb_eq in Ek. subst. now rewrite E. }
  assert (U : forall m m' Q, In (k, m, Q) (fs1 ++ (k, m', P) :: fs2) -> Q = P).
  { intros m m' Q H. apply in_app_or in H. cbn in H.
    assert (forall fs, In (k, m, Q) fs -> In k (map (fun f : field => fst (fst f)) fs)) as G
      by (intros fs Hf; apply in_map_iff; now exists (k, m, Q)).
    rewrite map_app in Hk. destruct H as [H|[H|H]].
    - exfalso. apply Hk, in_or_app. left. auto.
    - now injection H.
    - exfalso. apply Hk, in_or_app. right. auto. }
  assert (T : forall m m' k' x Q, In (k', x, Q) (fs1 ++ (k, m, P) :: fs2) ->
     exists x', In (k', x', Q) (fs1 ++ (k, m', P) :: fs2) /\ (k' <> k -> x' = x)).
  { intros m m' k' x Q H. apply in_app_or in H. cbn in H. destruct H as [H|[H|H]].
    - exists x. split; [apply in_or_app; now left | auto].
    - injection H as <- <- <-. exists m'. split; [apply in_or_app; right; now left | congruence].
    - exists x. split; [apply in_or_app; right; now right | auto]. }
  unfold described. split; intros [H1 H2]; split.
  - intros k' x Hx. destruct (H1 k' x) as (m & Q & Hin & HQ); [rewrite L, Hx; reflexivity|].
    destruct (T _ false _ _ _ Hin) as (m' & Hin' & _). eauto.
  - intros k' Q Hin. destruct (String.eqb_spec k' k) as [->|Hne].
    + exfalso. apply in_app_or in Hin. cbn in Hin. rewrite map_app in Hk. destruct Hin as [Hin|[Hin|Hin]].
      * apply Hk, in_or_app. left. apply in_map_iff. now exists (k, true, Q).
      * discriminate.
      * apply Hk, in_or_app. right. apply in_map_iff. now exists (k, true, Q).
    + destruct (T _ true _ _ _ Hin) as (m' & Hin' & E). rewrite (E Hne) in Hin'. specialize (H2 _ _ Hin').
      rewrite L in H2. destruct (lookup k' cfg); [discriminate|]. apply String.eqb_neq in Hne. now rewrite Hne in H2.
  - intros k' x Hx. rewrite L in Hx. destruct (lookup k' cfg) eqn:E.
    + injection Hx as ->. destruct (H1 k' x E) as (m & Q & Hin & HQ). destruct (T _ true _ _ _ Hin) as (m' & Hin' & _). eauto.
    + destruct (k' =? k) eqn:Ek; [|discriminate]. injection Hx as <-. apply String.eqb_eq in Ek. subst.
      exists true, P. split; [apply in_or_app; right; now left | exact HP].
  - intros k' Q Hin. rewrite L. destruct (lookup k' cfg) eqn:E; [discriminate|].
    destruct (String.eqb_spec k' k) as [->|Hne]; [discriminate|]. exfalso.
    destruct (T _ false _ _ _ Hin) as (m' & Hin' & Em). rewrite (Em Hne) in Hin'. exact (H2 _ _ Hin' E).
Qed.

Lemma set_default_nodup k v cfg : NoDup (keys cfg) -> NoDup (keys (set_default k v cfg)).
Proof. intros H. unfold set_default. destruct (lookup k cfg); [auto | now apply assign_nodup]. Qed.

(** ** The result has no key twice *)
Lemma wf_assign k v (d : dict) : wf (JDict d) -> wf v -> wf (JDict (assign k v d)).
Proof.
  intros H Hv. apply wf_dict_inv in H. destruct H as [Hn Hd]. constructor; [now apply assign_nodup|].
  intros k' v' Hin. apply In_lookup in Hin; [|now apply assign_nodup]. rewrite lookup_assign in Hin.
  destruct (k' =? k); [now injection Hin as <- | eapply Hd, lookup_In, Hin].
Qed.
Lemma update_wf u : forall d r, wf u -> wf d -> update_conf d u = Some r -> wf r.
Proof.
  induction u as [u Hu|items IH] using json_dict_ind; intros d r Hw Hd H; [now rewrite update_conf_leaf in H|].
  destruct d as [| | | | | | | |cfg]; try (rewrite update_conf_other in H by auto; destruct items; [|discriminate]; now injection H as <-).
  rewrite update_conf_dict in H. destruct (upd_items items cfg) as [res|] eqn:E; [|discriminate]. injection H as <-.
  apply wf_dict_inv in Hw. destruct Hw as [_ Hw].
  revert cfg Hd E. induction items as [|[k v] r IHr]; intros cfg Hd E; cbn in E; [now injection E as <-|].
  destruct (merge1 (get_or_empty k cfg) v) as [w|] eqn:Em; [|discriminate].
  apply (IHr (fun k' v' Hin => IH k' v' (or_intror Hin)) (fun k' v' Hin => Hw k' v' (or_intror Hin)) (assign k w cfg)); [|exact E].
  apply wf_assign; [exact Hd|]. unfold merge1 in Em. destruct (is_dict v) eqn:Ev.
  - apply (IH k v (or_introl eq_refl) (get_or_empty k cfg)); auto.
    + exact (Hw k v (or_introl eq_refl)).
    + unfold get_or_empty. destruct (lookup k cfg) eqn:El; [exact (wf_lookup _ _ _ Hd El)|]. constructor; [constructor | intros ? ? []].
  - injection Em as <-. apply wf_leaf. now apply conv_leaf.
Qed.
