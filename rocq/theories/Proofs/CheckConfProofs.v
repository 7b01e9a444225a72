(** Proofs about the check of a whole configuration. *)
From Coq Require Import List String Bool ZArith Lia.
From Verif Require Import Base.Json Model.CommonModel Model.ConfigModel Model.InputModel Model.MachineModel Model.CheckConfModel
  Spec.ConfigSpec Spec.MachineSpec Spec.CheckConfSpec Proofs.ConfigProofs Proofs.ConfigStepProofs Proofs.MachineProofs Proofs.MergeProofs.
Import ListNotations.
Open Scope Z_scope.
Open Scope string_scope.
Open Scope list_scope.

(** * Configurations completed by values that are not dictionaries *)
Definition leaf_update (x y : dict) : Prop :=
  NoDup (keys y) /\ (exists extra, keys y = keys x ++ extra) /\
  forall k v, lookup k y = Some v -> lookup k x = Some v \/ (is_dict v = false /\ conv v = v).
Lemma leaf_update_refl x : NoDup (keys x) -> leaf_update x x.
Proof. intros H. split; [exact H|]. split; [exists []; now rewrite app_nil_r | auto]. Qed.
Lemma leaf_update_assign x y k v : leaf_update x y -> is_dict v = false -> conv v = v -> leaf_update x (assign k v y).
Proof.
  intros (Hn & (e & He) & Hl) Hd Hc. split; [now apply assign_nodup|]. split.
  - destruct (keys_assign k v y) as [E|[_ E]]; rewrite E, He; [now exists e|]. exists (e ++ [k]). now rewrite app_assoc.
  - intros k' v' H. rewrite lookup_assign in H. destruct (k' =? k); [injection H as <-; auto | now apply Hl].
Qed.
Lemma leaf_update_default x y k v : leaf_update x y -> is_dict v = false -> conv v = v -> leaf_update x (set_default k v y).
Proof. intros H Hd Hc. unfold set_default. destruct (lookup k y); [exact H | now apply leaf_update_assign]. Qed.
Lemma leaf_update_merge x y : wf (JDict x) -> normal (JDict x) -> leaf_update x y -> upd_items y x = Some y.
Proof.
  intros Hw Hx (Hn & (e & He) & Hl). apply (upd_fixpoint0 y x e Hn He). intros k v Hin. apply In_lookup in Hin; [|exact Hn].
  unfold merge1. destruct (Hl _ _ Hin) as [E|[E1 E2]].
  - unfold get_or_empty. rewrite E. destruct (is_dict v) eqn:Ev.
    + apply update_self; [exact Ev | exact (wf_lookup _ _ _ Hw E) | exact (normal_lookup _ _ _ Hx E)].
    + f_equal. apply normal_root. exact (normal_lookup _ _ _ Hx E).
  - now rewrite E1, E2.
Qed.
Lemma leaf_update_wf x y : wf (JDict x) -> leaf_update x y -> wf (JDict y).
Proof.
  intros Hw (Hn & _ & Hl). constructor; [exact Hn|]. intros k v Hin. apply In_lookup in Hin; [|exact Hn].
  destruct (Hl _ _ Hin) as [E|[E _]]; [exact (wf_lookup _ _ _ Hw E) | now apply wf_leaf].
Qed.
Lemma leaf_update_normal x y : normal (JDict x) -> leaf_update x y -> normal (JDict y).
Proof.
  intros Hx (Hn & _ & Hl). apply normal_dict. intros k v H. destruct (Hl _ _ H) as [E|[E1 E2]]; [exact (normal_lookup _ _ _ Hx E) | now apply normal_leaf].
Qed.

Lemma integer_leaf j : is_integer j -> is_dict j = false /\ conv j = j.
Proof. intros [[? ->]|[? ->]]; split; reflexivity. Qed.

Section Checks.
  Context {D M : Type}.
  Variable bool_ok : bool.
  Variable pandora_check : dict -> option (json * json * json).
  Variable matching_cost_margins refinement_margins : dict -> M.
  Variable disparity_margins : M.
  Variable run_step : callback -> string -> json -> option M -> option json -> option json -> D -> option D.
  Variable can_open_mandatory can_open check_images : json -> bool.
  Variable image_size : string -> nat * nat.
  Variable open_raster : string -> reader.
  Hypothesis Hpandora : pandora_contract pandora_check.

  Notation est_conf := (est_conf bool_ok).
  Notation mc_conf := (mc_conf pandora_check matching_cost_margins).
  Notation disp_conf := (disp_conf bool_ok disparity_margins).
  Notation ref_conf := (ref_conf bool_ok refinement_margins).
  Notation call := (MachineModel.call est_conf mc_conf disp_conf ref_conf run_step).
  Notation trigger := (MachineModel.trigger est_conf mc_conf disp_conf ref_conf run_step).
  Notation trigger_all := (MachineModel.trigger_all est_conf mc_conf disp_conf ref_conf run_step).
  Notation machine_check := (machine_check bool_ok pandora_check matching_cost_margins refinement_margins disparity_margins run_step).
  Notation check_pipeline_section := (check_pipeline_section bool_ok pandora_check matching_cost_margins refinement_margins disparity_margins run_step).
  Notation check_input_section := (check_input_section bool_ok can_open_mandatory can_open check_images image_size open_raster).
  Notation check_roi_section := (check_roi_section bool_ok).
  Notation check_conf := (check_conf bool_ok pandora_check matching_cost_margins refinement_margins disparity_margins run_step
    can_open_mandatory can_open check_images image_size open_raster).
  Notation mach := (@machine json D M json json).

  (** * The steps *)
  Lemma estimation_leaf x y : NoDup (keys x) -> estimation_check_conf bool_ok x = Some y -> leaf_update x y.
  Proof.
    intros Hn H. unfold estimation_check_conf in H. destruct (validate _ _); [|discriminate]. injection H as <-.
    repeat apply leaf_update_default; try reflexivity. now apply leaf_update_refl.
  Qed.
  Lemma disparity_leaf x y : NoDup (keys x) -> disparity_check_conf bool_ok x = Some y -> leaf_update x y.
  Proof.
    intros Hn H. unfold disparity_check_conf in H. destruct (validate _ _); [|discriminate]. injection H as <-.
    assert (R := leaf_update_refl x Hn).
    destruct (lookup "invalid_disparity" x) as [[| | | | | |s| |]|]; auto; [destruct (s =? "NaN"); auto|]; now apply leaf_update_assign.
  Qed.
  Lemma validate_lookup (s : schema) (c : dict) k v : validate s c = true -> lookup k c = Some v -> exists m p, lookup k s = Some (m, p) /\ p v = true.
  Proof.
    intros H Hl. unfold validate in H. apply andb_true_iff in H. destruct H as [H _]. rewrite forallb_forall in H.
    specialize (H (k, v) (lookup_In _ _ _ Hl)). cbn [fst snd] in H. destruct (lookup k s) as [[m p]|]; [|discriminate]. eauto.
  Qed.
  Lemma int_leaf b p j : int_such_that b p j = true -> is_dict j = false /\ conv j = j.
  Proof. unfold int_such_that, as_int. destruct j; try discriminate; split; reflexivity. Qed.
  Lemma refinement_leaf step w x y : wf (JDict x) -> refinement_init bool_ok step w x = Some y ->
    leaf_update x y /\ refinement_init bool_ok step w y = Some y.
  Proof.
    intros Hw H. pose proof (wf_dict_inv _ Hw) as [Hn _]. unfold refinement_init in H.
    destruct (lookup "refinement_method" x) as [[| | | | | |s| |]|] eqn:El; try discriminate.
    assert (K : leaf_update x y -> lookup "refinement_method" y = Some (JStr s) -> forall P : Prop, P -> P) by auto.
    destruct (s =? "dichotomy") eqn:E1.
    { destruct (dichotomy_result _ _ _ H) as (j & n & Hj & Hi & E).
      assert (L : leaf_update x y).
      { subst y. destruct (Z.ltb 9 n); [apply leaf_update_assign; try reflexivity|]; now apply leaf_update_refl. }
      split; [exact L|]. unfold refinement_init.
      assert (lookup "refinement_method" y = Some (JStr s)) as ->.
      { subst y. destruct (Z.ltb 9 n); [rewrite lookup_assign; exact El | exact El]. }
      rewrite E1. now apply (dichotomy_again bool_ok x y). }
    destruct (s =? "optical_flow") eqn:E2.
    { destruct (optical_flow_result _ _ _ _ _ H) as [L Ha].
      split.
      - unfold optical_flow_init in H. set (c := set_default "iterations" _ _) in H. destruct (validate _ c) eqn:Ev; [|discriminate].
        injection H as <-.
        pose proof (validate_lookup _ _ "window_size" w Ev) as Vw. rewrite L in Vw. specialize (Vw eq_refl).
        destruct Vw as (mw & pw & Lw & Pw). cbn in Lw. injection Lw as <- <-. apply int_leaf in Pw. destruct Pw as [Pw1 Pw2].
        pose proof (validate_lookup _ _ "step" (step_of step) Ev) as Vs. rewrite L in Vs. specialize (Vs eq_refl).
        destruct Vs as (ms & ps & Ls & Ps). cbn in Ls. injection Ls as <- <-.
        assert (Hst : is_dict (step_of step) = false /\ conv (step_of step) = step_of step).
        { unfold step_schema in Ps. destruct (step_of step); try discriminate; split; reflexivity. }
        unfold c. apply leaf_update_default; try reflexivity. fold (step_of step).
        apply leaf_update_assign; try apply Hst. apply leaf_update_assign; auto. now apply leaf_update_refl.
      - unfold refinement_init. assert (lookup "refinement_method" y = Some (JStr s)) as ->.
        { rewrite L. cbn [String.eqb Ascii.eqb Bool.eqb]. now rewrite El. }
        now rewrite E1, E2. }
    destruct (s =? "interpolation") eqn:E3; [|discriminate]. assert (y = x) by now apply interpolation_result. subst y.
    split; [now apply leaf_update_refl|]. unfold refinement_init. now rewrite El, E1, E2, E3.
  Qed.

  (** The matching cost: the completed values are merged in the configuration of the user. *)
  Lemma matching_cost_merged x y : wf (JDict x) -> normal (JDict x) -> matching_cost_init pandora_check x = Some y ->
    exists z, upd_items y x = Some z /\ matching_cost_init pandora_check z = Some y /\ upd_items y z = Some z /\
      lookup "matching_cost_method" z = lookup "matching_cost_method" x.
  Proof.
    intros Hw Hx H. destruct (matching_cost_result _ _ _ H) as (m & a & b & w & s & o & Hm & Ms & Hs & Ha & Hb & Hp & Ey).
    destruct (Hpandora _ _ _ _ Hp) as (Iw & Is & Io & Hc). apply integer_leaf in Iw, Is, Io.
    assert (Hy : NoDup (keys y)). { subst y. repeat constructor; cbn; intuition discriminate. }
    assert (Hleaf : forall k v, In (k, v) y -> is_dict v = false /\ conv v = v).
    { subst y. destruct Ms as (st & Hst & ->). intros k v [E|[E|[E|[E|[E|[]]]]]]; injection E as <- <-; auto; split; try reflexivity.
      destruct Hst as [<-|[<-|[<-|[<-|[]]]]]; reflexivity. }
    assert (Hmerge : forall d k v, In (k, v) y -> merge1 d v = Some v).
    { intros d k v Hin. destruct (Hleaf _ _ Hin) as [E1 E2]. unfold merge1. now rewrite E1, E2. }
    destruct (upd_total y x Hy) as (z & Hz). { intros k v Hin. rewrite (Hmerge _ k v Hin). discriminate. }
    exists z. split; [exact Hz|].
    assert (L : overwritten_by y x z).
    { intros k. pose proof (upd_lookup _ _ _ Hz Hy k) as L. destruct (lookup k y) as [v|] eqn:E; [|exact L].
      destruct L as [L _]. rewrite L. apply (Hmerge _ k). now apply lookup_In. }
    split.
    - assert (Lm : lookup "matching_cost_method" z = Some m) by (rewrite L, Ey; reflexivity).
      assert (Lst : lookup "step" z = Some (JList [a; b])) by (rewrite L, Ey; reflexivity).
      assert (Pz : pandora_check (assign "step" b z) = Some (w, s, o)).
      { apply Hc. intros k. rewrite !lookup_assign. destruct (k =? "step") eqn:Ek.
        - apply String.eqb_eq in Ek. subst k. reflexivity.
        - rewrite L, Ey. cbn [lookup]. rewrite Ek. destruct (k =? "matching_cost_method") eqn:Em; [|reflexivity].
          apply String.eqb_eq in Em. subst k. cbn. now rewrite Hm. }
      destruct (matching_cost_init pandora_check z) as [y'|] eqn:E.
      + destruct (matching_cost_result _ _ _ E) as (m' & a' & b' & w' & s' & o' & Hm' & _ & Hs' & _ & _ & Hp' & Ey').
        rewrite Lm in Hm'. injection Hm' as <-. rewrite Lst in Hs'. injection Hs' as <- <-. rewrite Pz in Hp'. injection Hp' as <- <- <-. congruence.
      + exfalso. revert E. apply matching_cost_accepts. exists m, a, b. rewrite Lst. repeat split; auto. rewrite Pz. discriminate.
    - split.
      + apply upd_same; intros k v Hin; [left | exact (Hmerge _ k v Hin)]. rewrite L. now rewrite (In_lookup _ _ _ Hy Hin).
      + rewrite L, Ey, Hm. reflexivity.
  Qed.

  (** * One step: the completed configuration [c'] is merged in [c]; the check of the result does the same thing to the machine. *)
  Lemma step_again n name c (m m1 : mach) : wf c -> normal c -> call (check_callback n) name c m = Some m1 ->
    exists c' c2, m_pipeline m1 = assign name c' (m_pipeline m) /\ is_dict c = true /\ is_dict c' = true /\
      merge1 c c' = Some c2 /\ is_dict c2 = true /\ wf c2 /\ normal c2 /\
      merge1 c2 c' = Some c2 /\ (n = "matching_cost" -> get_path ["matching_cost_method"] c2 = get_path ["matching_cost_method"] c) /\
      call (check_callback n) name c2 m = Some m1.
  Proof.
    intros Hw Hn H.
    assert (Same : forall x y, c = JDict x -> leaf_update x y -> 
      merge1 c (JDict y) = Some (JDict y) /\ wf (JDict y) /\ normal (JDict y) /\ merge1 (JDict y) (JDict y) = Some (JDict y)).
    { intros x y -> L. assert (Wy := leaf_update_wf _ _ Hw L). assert (Ny := leaf_update_normal _ _ Hn L).
      split; [|split; [exact Wy|split; [exact Ny|]]]; unfold merge1; cbn [is_dict].
      - rewrite update_conf_dict, (leaf_update_merge _ _ Hw Hn L). reflexivity.
      - now apply update_self. }
    unfold check_callback in *.
    destruct (n =? "estimation") eqn:N1.
    { cbn [MachineModel.call] in H. unfold CheckConfModel.est_conf in H. destruct c as [| | | | | | | |x]; try discriminate.
      destruct (estimation_check_conf bool_ok x) as [y|] eqn:E; [|discriminate]. cbn [option_map] in H.
      pose proof (wf_dict_inv _ Hw) as [Hk _]. destruct (Same x y eq_refl (estimation_leaf _ _ Hk E)) as (S1 & S2 & S3 & S4).
      exists (JDict y), (JDict y). injection H as <-. cbn [m_pipeline is_dict]. repeat (split; [auto; fail|]).
      split; [intros ->; discriminate|].
      cbn [MachineModel.call CheckConfModel.est_conf]. now rewrite (proj2 (estimation_result _ _ _ E)). }
    destruct (n =? "matching_cost") eqn:N2.
    { cbn [MachineModel.call] in H. unfold CheckConfModel.mc_conf in H. destruct c as [| | | | | | | |x]; try discriminate.
      destruct (matching_cost_init pandora_check x) as [y|] eqn:E; [|discriminate].
      destruct (matching_cost_merged _ _ Hw Hn E) as (z & Z1 & Z2 & Z3 & Z4).
      destruct (lookup "step" y) as [st|] eqn:Est; [|discriminate]. destruct (lookup "window_size" y) as [w|] eqn:Ew; [|discriminate].
      exists (JDict y), (JDict z). injection H as <-. cbn [m_pipeline is_dict].
      assert (U : update_conf (JDict x) (JDict y) = Some (JDict z)) by (rewrite update_conf_dict, Z1; reflexivity).
      assert (Wy : wf (JDict y)).
      { destruct (matching_cost_result _ _ _ E) as (m0 & a & b & w0 & s & o & _ & Ms & _ & _ & _ & Hp & Ey).
        destruct (Hpandora _ _ _ _ Hp) as (Iw & Is & Io & _). apply integer_leaf in Iw, Is, Io. subst y. destruct Ms as (q & _ & ->).
        constructor; [repeat constructor; cbn; intuition discriminate|].
        intros k v [A|[A|[A|[A|[A|[]]]]]]; injection A as <- <-; apply wf_leaf; (reflexivity || apply Iw || apply Is || apply Io). }
      split; [reflexivity|]. split; [reflexivity|]. split; [reflexivity|]. split; [exact U|]. split; [reflexivity|].
      split; [exact (update_wf _ _ _ Wy Hw U)|]. split; [exact (update_normal _ _ _ Wy Hn U)|].
      split; [unfold merge1; cbn [is_dict]; rewrite update_conf_dict, Z3; reflexivity|].
      split; [intros _; cbn [get_path]; now rewrite Z4|].
      cbn [MachineModel.call CheckConfModel.mc_conf]. now rewrite Z2, Est, Ew. }
    destruct (n =? "disparity") eqn:N3.
    { cbn [MachineModel.call] in H. unfold CheckConfModel.disp_conf in H. destruct c as [| | | | | | | |x]; try discriminate.
      destruct (disparity_check_conf bool_ok x) as [y|] eqn:E; [|discriminate].
      pose proof (wf_dict_inv _ Hw) as [Hk _]. destruct (Same x y eq_refl (disparity_leaf _ _ Hk E)) as (S1 & S2 & S3 & S4).
      exists (JDict y), (JDict y). injection H as <-. cbn [m_pipeline is_dict]. repeat (split; [auto; fail|]).
      split; [intros ->; discriminate|].
      cbn [MachineModel.call CheckConfModel.disp_conf]. now rewrite (proj2 (disparity_again _ _ _ Hk E)). }
    cbn [MachineModel.call] in H. unfold CheckConfModel.ref_conf in H. destruct c as [| | | | | | | |x]; try discriminate.
    set (w := match m_window m with Some w => w | None => JNull end) in H.
    destruct (refinement_init bool_ok (m_step m) w x) as [y|] eqn:E; [|discriminate].
    destruct (refinement_leaf _ _ _ _ Hw E) as [L Ha]. destruct (Same x y eq_refl L) as (S1 & S2 & S3 & S4).
    exists (JDict y), (JDict y). injection H as <-. cbn [m_pipeline is_dict]. repeat (split; [auto; fail|]).
    split; [intros ->; discriminate|].
    cbn [MachineModel.call CheckConfModel.ref_conf]. fold w. now rewrite Ha.
  Qed.

  (** * All the steps *)
  (** [p2] is [p] where each configuration was merged with the one of the machine. *)
  Inductive merged (q : dict) : dict -> dict -> Prop :=
  | merged_nil : merged q [] []
  | merged_cons name c c' c2 p p2 : lookup name q = Some c' -> is_dict c = true -> is_dict c' = true -> merge1 c c' = Some c2 -> is_dict c2 = true ->
      wf c2 -> normal c2 -> merge1 c2 c' = Some c2 ->
      (name = "matching_cost" -> get_path ["matching_cost_method"] c2 = get_path ["matching_cost_method"] c) -> merged q p p2 -> merged q ((name, c) :: p) ((name, c2) :: p2).

  Lemma trigger_all_again p : forall (m m' : mach), check_machine m ->
    NoDup (keys p) -> (forall name c, In (name, c) p -> wf c /\ normal c) -> 
    trigger_all (fun n => n) p m = (m', None) ->
    exists p2, merged (m_pipeline m') p p2 /\ trigger_all (fun n => n) p2 m = (m', None) /\
      (forall k, ~ In k (keys p) -> lookup k (m_pipeline m') = lookup k (m_pipeline m)) /\
      (NoDup (keys (m_pipeline m)) -> NoDup (keys (m_pipeline m'))).
  Proof.
    induction p as [|[name c] p IH]; intros m m' Hm Hk Hc H; cbn [MachineModel.trigger_all] in H.
    - injection H as <-. exists []. split; [constructor|]. split; [reflexivity|]. split; auto.
    - rewrite trigger_check in H by exact Hm. destruct (next (m_state m) name) as [s'|] eqn:En; [|discriminate].
      destruct (call (check_callback name) name c m) as [m1|] eqn:Ec; [|discriminate].
      destruct (Hc name c (or_introl eq_refl)) as [Wc Nc].
      destruct (step_again _ _ _ _ _ Wc Nc Ec) as (c' & c2 & Ep & D0 & D1 & Hmg & D2 & W2 & N2 & Hmg2 & Hmm & Ec2).
      inversion Hk as [|? ? Hnot Hk']; subst.
      destruct (IH (set_state s' m1) m') as (p2 & Mp & T2 & Lp & Np); auto.
      { eapply check_machine_call; eauto. }
      { intros n0 c0 Hin. apply (Hc n0). now right. }
      cbn [m_pipeline set_state] in Lp, Np. exists ((name, c2) :: p2). split; [|split; [|split]].
      + apply (merged_cons _ name c c' c2); auto. rewrite Lp by exact Hnot. rewrite Ep, lookup_assign. now rewrite String.eqb_refl.
      + cbn [MachineModel.trigger_all]. rewrite trigger_check by exact Hm. now rewrite En, Ec2.
      + intros k Hn. cbn in Hn. rewrite Lp by tauto. rewrite Ep, lookup_assign. destruct (k =? name) eqn:E; [|reflexivity].
        apply String.eqb_eq in E. subst. exfalso. apply Hn. now left.
      + intros Hn. apply Np. rewrite Ep. now apply assign_nodup.
  Qed.
  Lemma merged_keys q p p2 : merged q p p2 -> keys p2 = keys p.
  Proof. induction 1; cbn in *; [reflexivity | now f_equal]. Qed.
  Lemma merged_lookup q p p2 : merged q p p2 -> forall k, match lookup k p with
    | None => lookup k p2 = None
    | Some c => exists c' c2, lookup k p2 = Some c2 /\ lookup k q = Some c' /\ is_dict c = true /\ is_dict c' = true /\ merge1 c c' = Some c2 /\
        is_dict c2 = true /\ wf c2 /\ normal c2 /\ merge1 c2 c' = Some c2 /\
        (k = "matching_cost" -> get_path ["matching_cost_method"] c2 = get_path ["matching_cost_method"] c) end.
  Proof.
    induction 1 as [|name c c' c2 p p2 Hl D0 D1 Hm D2 W N Hm2 Hmm HM IH]; intros k; cbn [lookup]; [reflexivity|].
    destruct (k =? name) eqn:E; [|apply IH]. apply String.eqb_eq in E. subst. exists c', c2. auto 12.
  Qed.

  (** The merge of the whole pipeline, and again. *)
  Lemma merged_update q p p2 : NoDup (keys q) -> NoDup (keys p) -> (forall k, lookup k q <> None -> In k (keys p)) -> merged q p p2 ->
    upd_items q p = Some p2 /\ upd_items q p2 = Some p2.
  Proof.
    intros Hq Hp Hin HM. pose proof (merged_lookup _ _ _ HM) as L. pose proof (merged_keys _ _ _ HM) as K.
    assert (G : forall k v, In (k, v) q -> exists c c2, lookup k p = Some c /\ lookup k p2 = Some c2 /\ merge1 c v = Some c2 /\ merge1 c2 v = Some c2).
    { intros k v Hv. apply In_lookup in Hv; [|exact Hq]. assert (In k (keys p)) as Hk by (apply Hin; congruence).
      apply lookup_in in Hk. specialize (L k). destruct (lookup k p) as [c|]; [|congruence].
      destruct L as (c' & c2 & L2 & Lq & _ & _ & Hm & _ & _ & _ & Hm2 & _). rewrite Hv in Lq. injection Lq as <-. eauto 10. }
    assert (Ext : forall x, keys x = keys p -> (forall k v, In (k, v) q -> exists c c2, lookup k x = Some c /\ lookup k p2 = Some c2 /\ merge1 c v = Some c2) ->
      upd_items q x = Some p2).
    { intros x Kx Gx. destruct (upd_total q x Hq) as (r & Hr).
      { intros k v Hv. destruct (Gx _ _ Hv) as (c & c2 & L1 & _ & Hm). unfold get_or_empty. rewrite L1, Hm. discriminate. }
      rewrite Hr. f_equal. apply dict_ext.
      - eapply upd_nodup; [exact Hr|]. now rewrite Kx.
      - rewrite (upd_new_keys _ _ _ Hq Hr), Kx, K, new_keys_none, app_nil_r; [reflexivity|]. intros k Hk. apply Hin. now apply lookup_in.
      - intros k. pose proof (upd_lookup _ _ _ Hr Hq k) as Lr. destruct (lookup k q) as [v|] eqn:Eq.
        + destruct (Gx k v (lookup_In _ _ _ Eq)) as (c & c2 & L1 & L2 & Hm). destruct Lr as [Lr _].
          rewrite Lr. unfold get_or_empty. now rewrite L1, Hm, L2.
        + rewrite Lr. specialize (L k). destruct (lookup k p) as [c|] eqn:Ep.
          * destruct L as (c' & c2 & _ & Lq & _). congruence.
          * rewrite L. apply lookup_none. fold (keys x). rewrite Kx. intros Hk. apply lookup_in in Hk. congruence. }
    split; apply Ext.
    - reflexivity.
    - intros k v Hv. destruct (G _ _ Hv) as (c & c2 & ? & ? & ? & ?). eauto.
    - exact K.
    - intros k v Hv. destruct (G _ _ Hv) as (c & c2 & ? & ? & ? & ?). exists c2, c2. auto.
  Qed.

  (** The section is accepted when the machine accepts the pipeline, read with the strings for floats. *)
  Lemma pipeline_section user d m p : wf (JDict user) -> merge1 (JDict []) (get_or_empty "pipeline" user) = Some (JDict p) -> lookup "pipeline" user <> None ->
    machine_check p (new_machine d) = (m, None) ->
    exists p2, check_pipeline_section user (new_machine d) = (m, Some [("pipeline", JDict p2)]) /\ merged (m_pipeline m) p p2 /\ NoDup (keys p) /\
      forall user2, wf (JDict user2) -> lookup "pipeline" user2 = Some (JDict p2) ->
        check_pipeline_section user2 (new_machine d) = (m, Some [("pipeline", JDict p2)]).
  Proof.
    intros Hw Hraw Hnn Em.
    assert (Wp : wf (JDict p)) by exact (merge_wf _ _ _ (get_or_empty_wf "pipeline" user Hw) wf_empty Hraw).
    assert (Np : normal (JDict p)) by exact (merge_normal _ _ _ (get_or_empty_wf "pipeline" user Hw) normal_empty Hraw).
    pose proof (wf_dict_inv _ Wp) as [Kp Vp]. pose proof (wf_dict_inv _ Hw) as [Ku _].
    destruct (update_empty_total (JDict user) eq_refl Hw) as (cfg & Eu).
    assert (Read : forall (u c : dict) v x, wf (JDict u) -> update_conf (JDict []) (JDict u) = Some (JDict c) -> lookup "pipeline" u = Some v ->
      merge1 (JDict []) v = Some x -> lookup "pipeline" c = Some x).
    { intros u c v x Wu E L X. rewrite update_conf_dict in E. destruct (upd_items u []) as [r|] eqn:Er; [|discriminate]. injection E as ->.
      pose proof (upd_lookup _ _ _ Er (proj1 (wf_dict_inv _ Wu)) "pipeline") as L2. rewrite L in L2. destruct L2 as [L2 _].
      rewrite L2. unfold get_or_empty. cbn [lookup]. exact X. }
    assert (Ep : lookup "pipeline" cfg = Some (JDict p)).
    { unfold get_or_empty in Hraw. destruct (lookup "pipeline" user) as [v|] eqn:Ev; [|congruence]. exact (Read _ _ _ _ Hw Eu Ev Hraw). }
    pose proof Em as Em0. unfold CheckConfModel.machine_check in Em.
    rewrite (check_conf_spec _ _ _ _ _ p (new_machine d) 0 eq_refl) in Em.
    set (m0 := set_transitions (copies transitions_check 1) (new_machine d)) in Em.
    destruct (trigger_all (fun n => n) p m0) as [m1 [e|]] eqn:Et; [discriminate|]. injection Em as <-.
    destruct (trigger_all_again p m0 m1) as (p2 & HM & T2 & Lq & Nq); auto.
    { exists 0%nat. reflexivity. }
    { intros name c Hin. split; [exact (Vp _ _ Hin)|]. exact (normal_lookup _ _ _ Np (In_lookup _ _ _ Kp Hin)). }
    cbn [m0 set_transitions new_machine m_pipeline] in Lq, Nq. specialize (Nq (NoDup_nil _)).
    cbn [m_pipeline set_state set_transitions].
    assert (Hin : forall k, lookup k (m_pipeline m1) <> None -> In k (keys p)).
    { intros k Hk. destruct (in_dec string_dec k (keys p)) as [|Hn]; [assumption|]. rewrite (Lq _ Hn) in Hk. cbn in Hk. congruence. }
    destruct (merged_update _ _ _ Nq Kp Hin HM) as [U1 U2].
    assert (Sec : forall (c x : dict), lookup "pipeline" c = Some (JDict x) -> upd_items (m_pipeline m1) x = Some p2 ->
      update_conf (JDict c) (JDict [("pipeline", JDict (m_pipeline m1))]) = Some (JDict (assign "pipeline" (JDict p2) c))).
    { intros c x Hl Hx. rewrite update_conf_dict. cbn [upd_items]. unfold merge1, get_or_empty. cbn [is_dict].
      rewrite Hl, update_conf_dict, Hx. reflexivity. }
    assert (HN : NoDup (keys p2)) by (rewrite (merged_keys _ _ _ HM); exact Kp).
    pose proof (merged_lookup _ _ _ HM) as ML.
    assert (W2 : wf (JDict p2)).
    { constructor; [exact HN|]. intros k v Hv. apply In_lookup in Hv; [|exact HN].
      specialize (ML k). destruct (lookup k p); [destruct ML as (? & ? & ? & ? & ? & ? & ? & ? & ? & ? & ? & ?); congruence | congruence]. }
    assert (N2 : normal (JDict p2)).
    { apply normal_dict. intros k v Hv.
      specialize (ML k). destruct (lookup k p); [|congruence]. destruct ML as (? & w & E & _ & _ & _ & _ & _ & _ & Nw & _). rewrite Hv in E. injection E as <-. exact Nw. }
    exists p2. split; [|split; [exact HM|split; [exact Kp|]]].
    - unfold CheckConfModel.check_pipeline_section. rewrite Eu, Ep, Em0. cbn [m_pipeline set_state set_transitions].
      rewrite (Sec _ _ Ep U1), lookup_assign. cbn [String.eqb Ascii.eqb Bool.eqb]. reflexivity.
    - intros user2 Wu2 L2. unfold CheckConfModel.check_pipeline_section.
      destruct (update_empty_total (JDict user2) eq_refl Wu2) as (cfg2 & E2). rewrite E2.
      rewrite (Read _ _ _ _ Wu2 E2 L2 (merge_empty _ W2 N2)).
      unfold CheckConfModel.machine_check. rewrite (check_conf_spec _ _ _ _ _ p2 (new_machine d) 0 eq_refl).
      fold m0. rewrite T2. cbn [m_pipeline set_state set_transitions].
      rewrite (Sec _ _ (Read _ _ _ _ Wu2 E2 L2 (merge_empty _ W2 N2)) U2), lookup_assign.
      cbn [String.eqb Ascii.eqb Bool.eqb]. reflexivity.
  Qed.

  Lemma pipeline_again user d m cp : wf (JDict user) -> check_pipeline_section user (new_machine d) = (m, Some cp) ->
    exists p p2, cp = [("pipeline", JDict p2)] /\ merge1 (JDict []) (get_or_empty "pipeline" user) = Some (JDict p) /\
      machine_check p (new_machine d) = (m, None) /\ merged (m_pipeline m) p p2 /\ NoDup (keys p) /\
      forall user2, wf (JDict user2) -> lookup "pipeline" user2 = Some (JDict p2) ->
        check_pipeline_section user2 (new_machine d) = (m, Some cp).
  Proof.
    intros Hw H. pose proof H as H0. unfold CheckConfModel.check_pipeline_section in H.
    destruct (update_conf (JDict []) (JDict user)) as [[| | | | | | | |cfg]|] eqn:Eu; try discriminate.
    destruct (lookup "pipeline" cfg) as [[| | | | | | | |p]|] eqn:Ep; try discriminate.
    destruct (machine_check p (new_machine d)) as [m' [e|]] eqn:Em; [discriminate|].
    assert (Hraw : merge1 (JDict []) (get_or_empty "pipeline" user) = Some (JDict p) /\ lookup "pipeline" user <> None).
    { rewrite update_conf_dict in Eu. destruct (upd_items user []) as [r|] eqn:Er; [|discriminate]. injection Eu as ->.
      pose proof (upd_lookup _ _ _ Er (proj1 (wf_dict_inv _ Hw)) "pipeline") as L. unfold get_or_empty in *.
      destruct (lookup "pipeline" user) as [v|]; [|cbn in L; congruence].
      destruct L as [L _]. cbn [lookup] in L. split; [congruence | discriminate]. }
    destruct (pipeline_section user d m' p Hw (proj1 Hraw) (proj2 Hraw) Em) as (p2 & E & HM & Kp & A).
    rewrite E in H0. injection H0 as <- <-. exists p, p2. split; [reflexivity|]. split; [exact (proj1 Hraw)|]. auto.
  Qed.

  (** * The input section *)
  Lemma defaults_ok : wf default_short_configuration_input /\ wf default_configuration_disp /\
    normal default_short_configuration_input /\ normal default_configuration_disp.
  Proof.
    unfold default_short_configuration_input, default_configuration_disp.
    repeat match goal with
    | |- _ /\ _ => split
    | |- wf (JDict _) => constructor; [repeat constructor; cbn; intuition discriminate|]; intros ? ?; cbn [In]; intros; repeat match goal with
        | H : _ \/ _ |- _ => destruct H | H : False |- _ => destruct H | H : (_, _) = (_, _) |- _ => injection H as <- <- end
    | |- wf _ => apply wf_leaf; reflexivity
    | |- normal (JDict _) => apply normal_dict; intros ? ?; cbn [lookup]; intros; repeat match goal with
        | H : (if ?b then _ else _) = Some _ |- _ => destruct b | H : None = Some _ |- _ => discriminate H | H : Some _ = Some _ |- _ => injection H as <- end
    | |- normal _ => apply normal_leaf; reflexivity
    end.
  Qed.

  Lemma complete_input_again estimation i r : wf i -> complete_input estimation (JDict [("input", i)]) = Some r ->
    exists i2, r = JDict [("input", i2)] /\ wf i2 /\ normal i2 /\ (is_dict i2 = true -> complete_input estimation (JDict [("input", i2)]) = Some r).
  Proof.
    intros Wi H. destruct defaults_ok as (W1 & W2 & N1 & N2).
    pose proof W1 as W1'. apply wf_dict_inv in W1'. destruct W1' as [_ W1']. specialize (W1' _ _ (or_introl eq_refl)).
    pose proof W2 as W2'. apply wf_dict_inv in W2'. destruct W2' as [_ W2']. specialize (W2' _ _ (or_introl eq_refl)).
    assert (N1' := normal_lookup "input" _ _ N1 eq_refl). assert (N2' := normal_lookup "input" _ _ N2 eq_refl).
    unfold default_short_configuration_input in *. unfold default_configuration_disp in *.
    match type of N1' with normal (JDict ?x) => set (d1 := x) in * end.
    match type of N2' with normal (JDict ?x) => set (d2 := x) in * end.
    assert (One : forall (x : dict) (i0 : json), update_conf (JDict [("input", JDict x)]) (JDict [("input", i0)]) =
      option_map (fun w => JDict [("input", w)]) (merge1 (JDict x) i0)).
    { intros x i0. rewrite update_conf_dict. cbn [upd_items get_or_empty lookup String.eqb Ascii.eqb Bool.eqb]. unfold get_or_empty. cbn [lookup String.eqb Ascii.eqb Bool.eqb].
      destruct (merge1 (JDict x) i0); reflexivity. }
    unfold complete_input, default_short_configuration_input, default_configuration_disp in *. fold d1 d2 in H |- *.
    rewrite One in H. destruct (merge1 (JDict d1) i) as [i1|] eqn:E1; [|discriminate]. cbn [option_map] in H.
    assert (Wi1 : wf i1) by exact (merge_wf _ _ _ Wi W1' E1). assert (Ni1 : normal i1) by exact (merge_normal _ _ _ Wi N1' E1).
    destruct estimation.
    - rewrite One in H. destruct (merge1 (JDict d2) i1) as [i2|] eqn:E2; [|discriminate]. cbn [option_map] in H. injection H as <-.
      exists i2. split; [reflexivity|]. split; [exact (merge_wf _ _ _ Wi1 W2' E2)|]. split; [exact (merge_normal _ _ _ Wi1 N2' E2)|].
      intros Hd. rewrite One.
      destruct (is_dict i) eqn:Ei.
      2:{ exfalso. unfold merge1 in E1. rewrite Ei in E1. injection E1 as <-. unfold merge1 in E2. rewrite conv_leaf in E2 by exact Ei.
          injection E2 as <-. rewrite conv_conv, conv_leaf in Hd by exact Ei. discriminate. }
      destruct i as [| | | | | | | |items]; try discriminate. unfold merge1 in E1. cbn [is_dict] in E1. rewrite update_conf_dict in E1.
      destruct (upd_items items d1) as [r1|] eqn:U1; [|discriminate]. injection E1 as <-.
      unfold merge1 in E2. cbn [is_dict] in E2. rewrite update_conf_dict in E2.
      destruct (upd_items r1 d2) as [r2|] eqn:U2; [|discriminate]. injection E2 as <-.
      destruct (complete_twice d1 d2 items r1 r2) as (r3 & A & B); auto.
      { intros k v. unfold d1. cbn [lookup]. repeat (match goal with |- context [if ?b then _ else _] => destruct b end; [intros X; injection X as <-; reflexivity|]). discriminate. }
      { intros k v. unfold d2. cbn [lookup]. repeat (match goal with |- context [if ?b then _ else _] => destruct b end; [intros X; injection X as <-; reflexivity|]). discriminate. }
      { unfold d1, d2. cbn. intros k [<-|[<-|[]]] [X|[X|[]]]; discriminate. }
      unfold merge1. cbn [is_dict]. rewrite update_conf_dict, A. cbn [option_map]. rewrite One. unfold merge1. cbn [is_dict].
      rewrite update_conf_dict, B. reflexivity.
    - injection H as <-. exists i1. split; [reflexivity|]. split; [exact Wi1|]. split; [exact Ni1|]. intros _.
      rewrite One. rewrite (merge_again (JDict d1) i i1); auto.
  Qed.

  Lemma input_again user estimation ci : wf (JDict user) -> check_input_section (get_config_input user) estimation = Some ci ->
    exists i2, ci = [("input", i2)] /\ is_dict i2 = true /\ wf i2 /\
      forall user2, lookup "input" user2 = Some i2 -> check_input_section (get_config_input user2) estimation = Some ci.
  Proof.
    intros Hw H. unfold get_config_input in *. destruct (lookup "input" user) as [i|] eqn:Ei; [|discriminate].
    unfold CheckConfModel.check_input_section in H. cbn [lookup String.eqb Ascii.eqb Bool.eqb] in H.
    destruct (complete_input estimation (JDict [("input", i)])) as [[| | | | | | | |cfg]|] eqn:Ec; try discriminate.
    destruct (complete_input_again _ _ _ (wf_lookup _ _ _ Hw Ei) Ec) as (i2 & E & W & N & A). injection E as ->.
    destruct (validate _ [("input", i2)]) eqn:Ev; [|discriminate]. cbn [lookup String.eqb Ascii.eqb Bool.eqb] in H.
    destruct i2 as [| | | | | | | |input]; try discriminate.
    destruct (check_images (JDict input) && _) eqn:Ek; [|discriminate]. injection H as <-.
    exists (JDict input). split; [reflexivity|]. split; [reflexivity|]. split; [exact W|]. intros user2 ->.
    unfold CheckConfModel.check_input_section. cbn [lookup String.eqb Ascii.eqb Bool.eqb].
    rewrite (A eq_refl), Ev. cbn [lookup String.eqb Ascii.eqb Bool.eqb]. now rewrite Ek.
  Qed.

  (** * The ROI section *)
  Lemma roi_again user cr : wf (JDict user) -> check_roi_section (get_roi_config user) = Some cr ->
    match lookup "ROI" user with
    | None => cr = []
    | Some _ => exists roi, cr = [("ROI", JDict roi)] /\ wf (JDict roi) /\ check_roi bool_ok roi = true
    end /\
    forall user2, lookup "ROI" user2 = lookup "ROI" cr -> check_roi_section (get_roi_config user2) = Some cr.
  Proof.
    intros Hw H. unfold get_roi_config in *. destruct (lookup "ROI" user) as [r|] eqn:Er.
    2:{ cbn in H. injection H as <-. split; [reflexivity|]. intros user2 ->. reflexivity. }
    unfold CheckConfModel.check_roi_section in H.
    assert (Wr : wf r) by exact (wf_lookup _ _ _ Hw Er).
    rewrite update_conf_dict in H. cbn [upd_items] in H. unfold get_or_empty in H. cbn [lookup] in H.
    destruct (merge1 (JDict []) r) as [w|] eqn:Em; [|discriminate]. cbn [option_map assign lookup String.eqb Ascii.eqb Bool.eqb] in H.
    destruct w as [| | | | | | | |roi]; try discriminate. destruct (check_roi bool_ok roi) eqn:Ec; [|discriminate]. injection H as <-.
    assert (Ww : wf (JDict roi)) by exact (merge_wf _ _ _ Wr wf_empty Em). assert (Nw : normal (JDict roi)) by exact (merge_normal _ _ _ Wr normal_empty Em).
    split; [exists roi; auto|]. cbn [lookup String.eqb Ascii.eqb Bool.eqb]. intros user2 ->.
    unfold CheckConfModel.check_roi_section. rewrite update_conf_dict. cbn [upd_items]. unfold get_or_empty. cbn [lookup].
    rewrite merge_empty by assumption. cbn [option_map assign lookup String.eqb Ascii.eqb Bool.eqb]. now rewrite Ec.
  Qed.

  (** * The whole configuration *)
  Lemma check_conf_again user d m cfg : wf (JDict user) -> check_conf user (new_machine d) = (m, Some cfg) ->
    wf (JDict cfg) /\
    (forall k, In k (keys cfg) -> In k sections) /\ lookup "input" cfg <> None /\ lookup "pipeline" cfg <> None /\
    (lookup "ROI" cfg <> None <-> lookup "ROI" user <> None) /\
    (forall roi, lookup "ROI" cfg = Some roi -> exists r, roi = JDict r /\ wf roi /\ check_roi bool_ok r = true) /\
    forall user2, wf (JDict user2) -> (forall k, In k sections -> lookup k user2 = lookup k cfg) ->
      check_conf user2 (new_machine d) = (m, Some cfg).
  Proof.
    intros Hw H. unfold CheckConfModel.check_conf in H.
    destruct (lookup "pipeline" user) as [[| | | | | | | |raw]|] eqn:Eraw; try discriminate.
    set (est := match lookup "estimation" raw with None | Some JNull => false | Some _ => true end) in H.
    destruct (check_input_section (get_config_input user) est) as [ci|] eqn:Eci; [|discriminate].
    destruct (check_roi_section (get_roi_config user)) as [cr|] eqn:Ecr; [|discriminate].
    destruct (check_pipeline_section user (new_machine d)) as [m' [cp|]] eqn:Ecp; [|discriminate].
    destruct (input_again _ _ _ Hw Eci) as (i2 & -> & Di & Wi & Ai).
    destruct (roi_again _ _ Hw Ecr) as (Hroi & Ar).
    destruct (pipeline_again _ _ _ _ Hw Ecp) as (p & p2 & -> & Hraw & Hmach & HM & Kp & Ap).
    (* the flag of the estimation *)
    assert (Est : match lookup "estimation" p2 with None | Some JNull => false | Some _ => true end = est).
    { unfold est. unfold get_or_empty in Hraw. rewrite Eraw in Hraw. unfold merge1 in Hraw. cbn [is_dict] in Hraw. rewrite update_conf_dict in Hraw.
      destruct (upd_items raw []) as [r|] eqn:Er; [|discriminate]. injection Hraw as ->.
      assert (Kraw : NoDup (keys raw)) by exact (proj1 (wf_dict_inv _ (wf_lookup _ _ _ Hw Eraw))).
      pose proof (upd_lookup _ _ _ Er Kraw "estimation") as L. pose proof (merged_lookup _ _ _ HM "estimation") as ML.
      destruct (lookup "estimation" raw) as [v|] eqn:Ev.
      - destruct L as [L Hnn]. rewrite L in ML. destruct (merge1 _ v) as [c|] eqn:Ec; [|congruence].
        destruct ML as (c' & c2 & L2 & _ & Dc & _ & _ & D2 & _). rewrite L2.
        destruct c2; try discriminate. unfold merge1 in Ec. destruct v; try reflexivity. cbn in Ec. injection Ec as <-. discriminate.
      - rewrite L in ML. cbn [lookup] in ML. now rewrite ML. }
    destruct (match get_path ["pipeline"; "matching_cost"] _ with Some _ => _ | None => true end) eqn:End_; [|discriminate].
    assert (Xcr : cr = [] \/ exists roi, cr = [("ROI", JDict roi)] /\ wf (JDict roi) /\ check_roi bool_ok roi = true).
    { destruct (lookup "ROI" user); [right; exact Hroi | left; exact Hroi]. }
    assert (W2 : wf (JDict p2)).
    { assert (HN : NoDup (keys p2)) by (rewrite (merged_keys _ _ _ HM); exact Kp). constructor; [exact HN|].
      intros k v Hv. apply In_lookup in Hv; [|exact HN]. pose proof (merged_lookup _ _ _ HM k) as ML.
      destruct (lookup k p); [destruct ML as (? & ? & ? & ? & ? & ? & ? & ? & ? & ? & ? & ?); congruence | congruence]. }
    assert (Res : forall ex, (ex = [] \/ exists j, ex = [("expert_mode", j)] /\ wf j) ->
      concat_conf [[("input", i2)]; cr; [("pipeline", JDict p2)]; ex] = [("input", i2)] ++ cr ++ [("pipeline", JDict p2)] ++ ex).
    { intros ex Hex. destruct Xcr as [->|(roi & -> & _)]; destruct Hex as [->|(j & -> & _)]; reflexivity. }
    assert (Fin : exists ex, (ex = [] \/ exists j, ex = [("expert_mode", j)] /\ wf j) /\ m' = m /\
      cfg = [("input", i2)] ++ cr ++ [("pipeline", JDict p2)] ++ ex /\
      forall user2, lookup "expert_mode" user2 = lookup "expert_mode" ex ->
        match lookup "expert_mode" user2 with
        | None | Some (JDict []) => (m', Some (concat_conf [[("input", i2)]; cr; [("pipeline", JDict p2)]]))
        | Some j => match check_expert_mode_section j with
                    | Some ce => (m', Some (concat_conf [[("input", i2)]; cr; [("pipeline", JDict p2)]; ce]))
                    | None => (m', None) end
        end = (m, Some cfg)).
    { assert (None_case : forall c, (m', Some (concat_conf [[("input", i2)]; cr; [("pipeline", JDict p2)]])) = (m, Some c) ->
        m' = m /\ c = [("input", i2)] ++ cr ++ [("pipeline", JDict p2)] ++ []).
      { intros c X. injection X as <- <-. split; [reflexivity|]. rewrite <- (Res [] (or_introl eq_refl)). reflexivity. }
      assert (CE : forall j ce, check_expert_mode_section j = Some ce -> ce = [("expert_mode", j)] /\ is_dict j = true /\ j <> JDict []).
      { intros j ce X. unfold check_expert_mode_section in X. destruct j as [| | | | | | | |dj]; try discriminate.
        destruct (lookup "profiling" dj) eqn:Ej; [|discriminate]. destruct (sub_schema _ _); [|discriminate]. injection X as <-.
        split; [reflexivity|]. split; [reflexivity|]. intros Y. injection Y as ->. discriminate. }
      destruct (lookup "expert_mode" user) as [j|] eqn:Ex.
      2:{ exists []. split; [now left|]. destruct (None_case cfg H) as [-> ->]. split; [reflexivity|]. split; [reflexivity|].
          intros user2 ->. cbn [lookup]. rewrite <- (Res [] (or_introl eq_refl)). reflexivity. }
      assert (Wj : wf j) by exact (wf_lookup _ _ _ Hw Ex).
      destruct (check_expert_mode_section j) as [ce|] eqn:Ece.
      - destruct (CE _ _ Ece) as (-> & Dj & Nj). exists [("expert_mode", j)]. assert (Hex : [("expert_mode", j)] = [] \/ exists j0, [("expert_mode", j)] = [("expert_mode", j0)] /\ wf j0) by (right; eauto).
        split; [exact Hex|].
        assert (Y : (m', Some (concat_conf [[("input", i2)]; cr; [("pipeline", JDict p2)]; [("expert_mode", j)]])) = (m, Some cfg)).
        { destruct j as [| | | | | | | |[|e0 dj]]; try discriminate; cbn in H, Ece |- *; first [exact H | rewrite Ece in H; exact H]. }
        rewrite (Res _ Hex) in Y. injection Y as Y1 Y2. split; [exact Y1|]. split; [symmetry; exact Y2|].
        intros user2 ->. cbn [lookup String.eqb Ascii.eqb Bool.eqb]. rewrite <- Y1, <- Y2. pose proof (Res _ Hex) as R.
        destruct j as [| | | | | | | |[|e0 dj]]; try discriminate; cbv beta iota; rewrite Ece; cbv beta iota; exact (f_equal (fun x => (m', Some x)) R).
      - exists []. split; [now left|].
        assert (j = JDict []) as -> by (destruct j as [| | | | | | | |[|e0 dj]]; try discriminate; reflexivity).
        destruct (None_case cfg H) as [-> ->]. split; [reflexivity|]. split; [reflexivity|].
        intros user2 ->. cbn [lookup]. rewrite <- (Res [] (or_introl eq_refl)). reflexivity. }
    destruct Fin as (ex & Hex & <- & Ecfg & Fin). clear H.
    assert (LR : lookup "ROI" cfg = lookup "ROI" cr).
    { subst cfg. destruct Xcr as [->|(roi & -> & _)]; destruct Hex as [->|(j & -> & _)]; reflexivity. }
    assert (LI : lookup "input" cfg = Some i2) by (subst cfg; reflexivity).
    assert (LP : lookup "pipeline" cfg = Some (JDict p2)).
    { subst cfg. destruct Xcr as [->|(roi & -> & _)]; destruct Hex as [->|(j & -> & _)]; reflexivity. }
    assert (LE : lookup "expert_mode" cfg = lookup "expert_mode" ex).
    { subst cfg. destruct Xcr as [->|(roi & -> & _)]; destruct Hex as [->|(j & -> & _)]; reflexivity. }
    split; [|split; [|split; [congruence|split; [congruence|split; [|split]]]]].
    - subst cfg. constructor.
      + destruct Xcr as [->|(roi & -> & _)]; destruct Hex as [->|(j & -> & _)]; cbn; repeat constructor; cbn; intuition discriminate.
      + intros k v Hin. destruct Xcr as [->|(roi & -> & Wroi & _)]; destruct Hex as [->|(j & -> & Wj)]; cbn in Hin;
          repeat match goal with X : _ \/ _ |- _ => destruct X | X : False |- _ => destruct X | X : (_, _) = (_, _) |- _ => injection X as <- <- end; assumption.
    - subst cfg. intros k. destruct Xcr as [->|(roi & -> & _)]; destruct Hex as [->|(j & -> & _)]; cbn; intuition.
    - rewrite LR. destruct (lookup "ROI" user); [destruct Hroi as (roi & -> & _) | subst cr]; cbn; split; congruence.
    - rewrite LR. intros roi Hl. destruct Xcr as [->|(r & -> & Wr & Cr)]; [discriminate|]. cbn in Hl. injection Hl as <-. eauto.
    - intros user2 Wu2 L2. unfold CheckConfModel.check_conf.
      assert (LP2 : lookup "pipeline" user2 = Some (JDict p2)) by (rewrite L2 by (cbn; auto); exact LP). rewrite LP2, Est.
      rewrite (Ai user2) by (rewrite L2 by (cbn; auto); exact LI).
      rewrite (Ar user2) by (rewrite L2 by (cbn; auto); exact LR).
      rewrite (Ap user2 Wu2 LP2). rewrite End_. apply Fin. rewrite L2 by (cbn; auto). exact LE.
  Qed.
End Checks.
