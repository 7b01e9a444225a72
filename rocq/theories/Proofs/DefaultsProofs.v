(** Proofs about the values of the steps in the checked configuration. *)
From Coq Require Import List String Bool ZArith QArith Lia.
From Verif Require Import Base.Json Base.Dict Model.CommonModel Model.ConfigModel Model.InputModel Model.MachineModel Model.CheckConfModel
  Spec.ConfigSpec Spec.InputSpec Spec.MachineSpec Spec.CheckConfSpec Spec.DefaultsSpec
  Proofs.ConfigProofs Proofs.ConfigStepProofs Proofs.MachineProofs Proofs.MergeProofs Proofs.CheckConfProofs Proofs.AcceptProofs Proofs.WholeProofs.
Import ListNotations.
Open Scope Z_scope.
Open Scope string_scope.
Open Scope list_scope.

Section Defaults.
  Context {D M : Type}.
  Variable bool_ok : bool.
  Variable pandora_check : dict -> option (json * json * json).
  Variable matching_cost_margins refinement_margins : dict -> M.
  Variable disparity_margins : M.
  Variable run_step : callback -> string -> json -> option M -> option json -> option json -> D -> option D.
  Variable can_open_mandatory can_open check_images : json -> bool.
  Variable image_size : string -> nat * nat.
  Variable open_raster : string -> reader.
  Hypothesis Hpandora : pandora_contract pandora_check.
  Notation est_conf := (est_conf bool_ok).
  Notation mc_conf := (mc_conf pandora_check matching_cost_margins).
  Notation disp_conf := (disp_conf bool_ok disparity_margins).
  Notation ref_conf := (ref_conf bool_ok refinement_margins).
  Notation call := (MachineModel.call est_conf mc_conf disp_conf ref_conf run_step).
  Notation trigger_all := (MachineModel.trigger_all est_conf mc_conf disp_conf ref_conf run_step).
  Notation machine_check := (machine_check bool_ok pandora_check matching_cost_margins refinement_margins disparity_margins run_step).
  Notation check_conf := (check_conf bool_ok pandora_check matching_cost_margins refinement_margins disparity_margins run_step
    can_open_mandatory can_open check_images image_size open_raster).
  Notation mach := (@machine json D M json json).

  (** The configuration [z] of the step [n] comes from [x]; [mc] is the configuration of the matching cost in the machine. *)
  Definition from_step (n : string) (mc : option json) (x z : dict) : Prop :=
    let method := lookup "refinement_method" x in
    (forall k, ~ other_rule n method k -> lookup k z = match lookup k x with Some v => Some v | None => lookup k (defaults n method) end) /\
    (n = "matching_cost" ->
       (exists b w s o, pandora_check (assign "step" b x) = Some (w, s, o) /\ forall k, In k pandora_keys -> lookup k z = lookup k [("window_size", w); ("subpix", s); ("spline_order", o)]) /\
       exists y, mc = Some (JDict y) /\ forall k, In k matching_cost_keys -> lookup k z = lookup k y) /\
    (n = "refinement" -> method = Some (JStr "dichotomy") ->
       exists j i, lookup "iterations" x = Some j /\ int_value bool_ok j i /\ lookup "iterations" z = Some (if Z.ltb 9 i then JInt 9 else j)) /\
    (n = "refinement" -> method = Some (JStr "optical_flow") ->
       exists y, mc = Some (JDict y) /\ forall k, In k matching_cost_keys -> lookup k z = lookup k y /\ lookup k y <> None).

  (** What the machine knows of the matching cost. *)
  Definition knows (m : mach) : Prop := m_state m = CostVolumes \/ m_state m = DispMaps ->
    exists y s w, lookup "matching_cost" (m_pipeline m) = Some (JDict y) /\ lookup "step" y = Some s /\ lookup "window_size" y = Some w /\ m_step m = Some s /\ m_window m = Some w.

  Lemma step_from name c (m m1 : mach) s' : wf c -> normal c -> knows m -> next (m_state m) name = Some s' -> call (check_callback name) name c m = Some m1 ->
    exists x c', c = JDict x /\ m_pipeline m1 = assign name c' (m_pipeline m) /\ knows (set_state s' m1) /\
      forall c2, merge1 c c' = Some c2 -> exists z, c2 = JDict z /\ from_step name (lookup "matching_cost" (m_pipeline m1)) x z.
  Proof.
    intros Hw Hn HK En H.
    assert (Same : forall x y c2, c = JDict x -> leaf_update x y -> merge1 c (JDict y) = Some c2 -> c2 = JDict y).
    { intros x y c2 -> L E. unfold merge1 in E. cbn [is_dict] in E. rewrite update_conf_dict, (leaf_update_merge _ _ Hw Hn L) in E. now injection E as <-. }
    assert (Cases : name = "estimation" /\ m_state m = Begin /\ s' = Assumption \/ name = "matching_cost" /\ s' = CostVolumes \/
      name = "disparity" /\ m_state m = CostVolumes /\ s' = DispMaps \/ name = "refinement" /\ m_state m = DispMaps /\ s' = DispMaps).
    { unfold next in En. destruct (m_state m);
        repeat match type of En with context [?a =? ?b] => destruct (String.eqb_spec a b) as [->|]; [injection En as <-; tauto|] end; discriminate. }
    destruct Cases as [(-> & St & ->)|[(-> & ->)|[(-> & St & ->)|(-> & St & ->)]]].
    - change (check_callback "estimation") with EstimationCheck in H.
      cbn [MachineModel.call] in H. unfold CheckConfModel.est_conf in H. destruct c as [| | | | | | | |x]; try discriminate.
      destruct (estimation_check_conf bool_ok x) as [y|] eqn:E; [|discriminate]. cbn [option_map] in H. injection H as <-.
      pose proof (wf_dict_inv _ Hw) as [Hk _]. exists x, (JDict y). split; [reflexivity|]. split; [reflexivity|].
      split; [intros [X|X]; discriminate|]. intros c2 E2. exists y. split; [exact (Same x y c2 eq_refl (estimation_leaf _ _ _ Hk E) E2)|].
      split; [|split; [discriminate|split; discriminate]]. intros k _. destruct (estimation_result _ _ _ E) as [L _]. rewrite L. reflexivity.
    - change (check_callback "matching_cost") with MatchingCostCheck in H.
      cbn [MachineModel.call] in H. unfold CheckConfModel.mc_conf in H. destruct c as [| | | | | | | |x]; try discriminate.
      destruct (matching_cost_init pandora_check x) as [y|] eqn:E; [|discriminate].
      destruct (lookup "step" y) as [st|] eqn:Est; [|discriminate]. destruct (lookup "window_size" y) as [w0|] eqn:Ew; [|discriminate]. injection H as <-.
      exists x, (JDict y). split; [reflexivity|]. split; [reflexivity|]. cbn [m_pipeline]. rewrite lookup_assign, String.eqb_refl.
      split; [intros _; exists y, st, w0; cbn [m_pipeline set_state m_step m_window]; rewrite lookup_assign, String.eqb_refl; auto|].
      intros c2 E2. unfold merge1 in E2. cbn [is_dict] in E2. rewrite update_conf_dict in E2. destruct (upd_items y x) as [z|] eqn:Ez; [|discriminate]. injection E2 as <-.
      exists z. split; [reflexivity|].
      destruct (matching_cost_result _ _ _ E) as (m0 & a & b & w & s & o & Hm & Ms & Hs & Ha & Hb & Hp & Ey).
      destruct (Hpandora _ _ _ _ Hp) as (Iw & Is & Io & _). apply integer_leaf in Iw, Is, Io.
      assert (Hy : NoDup (keys y)). { subst y. repeat constructor; cbn; intuition discriminate. }
      assert (Hleaf : forall k v, In (k, v) y -> is_dict v = false /\ conv v = v).
      { subst y. destruct Ms as (q & Hq & ->). intros k v [X|[X|[X|[X|[X|[]]]]]]; injection X as <- <-; auto; split; try reflexivity.
        destruct Hq as [<-|[<-|[<-|[<-|[]]]]]; reflexivity. }
      assert (L : overwritten_by y x z).
      { intros k. pose proof (upd_lookup _ _ _ Ez Hy k) as L. destruct (lookup k y) as [v|] eqn:X; [|exact L].
        destruct L as [L _]. rewrite L. destruct (Hleaf k v (lookup_In _ _ _ X)) as [E1 E2]. unfold merge1. now rewrite E1, E2. }
      split; [|split; [|split; intros X; discriminate]].
      + intros k Hk. rewrite L, Ey. cbn [lookup]. destruct (String.eqb_spec k "matching_cost_method") as [->|N1]; [now rewrite Hm|].
        destruct (String.eqb_spec k "step") as [->|N2].
        { destruct (lookup "step" x) as [v|]; [subst v|]; [reflexivity|]. cbn. now rewrite Hs. }
        assert (~ In k pandora_keys) as Nk by (intros X; apply Hk; left; auto). cbn in Nk.
        destruct (String.eqb_spec k "window_size") as [->|N3]; [tauto|]. destruct (String.eqb_spec k "subpix") as [->|N4]; [tauto|].
        destruct (String.eqb_spec k "spline_order") as [->|N5]; [tauto|]. destruct (lookup k x); [reflexivity|].
        apply String.eqb_neq in N2. cbn. now rewrite N2.
      + intros _. split.
        * exists b, w, s, o. split; [exact Hp|]. intros k [<-|[<-|[<-|[]]]]; rewrite L, Ey; reflexivity.
        * exists y. split; [reflexivity|]. intros k [<-|[<-|[]]]; rewrite L; [now rewrite Ew | now rewrite Est].
    - change (check_callback "disparity") with DisparityCheck in H.
      cbn [MachineModel.call] in H. unfold CheckConfModel.disp_conf in H. destruct c as [| | | | | | | |x]; try discriminate.
      destruct (disparity_check_conf bool_ok x) as [y|] eqn:E; [|discriminate]. injection H as <-.
      pose proof (wf_dict_inv _ Hw) as [Hk _]. exists x, (JDict y). split; [reflexivity|]. split; [reflexivity|]. split.
      { intros _. destruct (HK (or_introl St)) as (y0 & s & w & L & G). exists y0, s, w. cbn [m_pipeline set_state m_step m_window].
        rewrite lookup_assign. cbn [String.eqb Ascii.eqb Bool.eqb]. auto. }
      intros c2 E2. exists y. split; [exact (Same x y c2 eq_refl (disparity_leaf _ _ _ Hk E) E2)|].
      split; [|split; [discriminate|split; discriminate]]. intros k _. destruct (disparity_again _ _ _ Hk E) as [-> _]. rewrite disparity_lookup.
      change (defaults "disparity" (lookup "refinement_method" x)) with [("invalid_disparity", JInt (-9999))]. cbn [lookup].
      destruct (String.eqb_spec k "invalid_disparity") as [->|N]; [|now destruct (lookup k x)].
      destruct (lookup "invalid_disparity" x) as [[| | | | | |q| |]|] eqn:Lx; try reflexivity.
      destruct (String.eqb_spec q "NaN") as [->|]; [|reflexivity]. pose proof (normal_root _ (normal_lookup _ _ _ Hn Lx)) as X. discriminate.
    - change (check_callback "refinement") with RefinementCheck in H.
      cbn [MachineModel.call] in H. unfold CheckConfModel.ref_conf in H. destruct c as [| | | | | | | |x]; try discriminate.
      destruct (HK (or_intror St)) as (y0 & s & w & Lm & Ls & Lw & Es & Ew). rewrite Es, Ew in H.
      destruct (refinement_init bool_ok (Some s) w x) as [y|] eqn:E; [|discriminate]. injection H as <-.
      exists x, (JDict y). split; [reflexivity|]. split; [reflexivity|].
      assert (Lm' : lookup "matching_cost" (assign "refinement" (JDict y) (m_pipeline m)) = Some (JDict y0)).
      { rewrite lookup_assign. cbn [String.eqb Ascii.eqb Bool.eqb]. exact Lm. }
      split.
      { intros _. exists y0, s, w. cbn [m_pipeline set_state m_step m_window]. auto. }
      cbn [m_pipeline]. rewrite Lm'.
      intros c2 E2. exists y. split; [exact (Same x y c2 eq_refl (proj1 (refinement_leaf _ _ _ _ _ Hw E)) E2)|].
      unfold refinement_init in E. unfold from_step. destruct (lookup "refinement_method" x) as [[| | | | | |q| |]|] eqn:Eq; try discriminate.
      destruct (String.eqb_spec q "dichotomy") as [->|N1].
      { destruct (dichotomy_result _ _ _ E) as (j & i & Hj & Hi & Ey). split; [|split; [discriminate|split; [|discriminate]]].
        - intros k Hk. assert (k <> "iterations") as Nk by (intros ->; apply Hk; right; right; auto).
          assert (Y : lookup k y = lookup k x).
          { rewrite Ey. destruct (Z.ltb 9 i); [|reflexivity]. rewrite lookup_assign. apply String.eqb_neq in Nk. now rewrite Nk. }
          rewrite Y. change (defaults "refinement" (Some (JStr "dichotomy"))) with (@nil (string * json)). now destruct (lookup k x).
        - intros _ _. exists j, i. split; [exact Hj|]. split; [exact Hi|]. rewrite Ey. destruct (Z.ltb 9 i); [|exact Hj].
          rewrite lookup_assign. reflexivity. }
      destruct (String.eqb_spec q "optical_flow") as [->|N2].
      { destruct (optical_flow_result _ _ _ _ _ E) as [L _]. split; [|split; [discriminate|split; [discriminate|]]].
        - intros k Hk. assert (~ In k matching_cost_keys) as Nk by (intros X; apply Hk; right; left; auto). cbn in Nk. rewrite L.
          destruct (String.eqb_spec k "step") as [->|]; [tauto|]. destruct (String.eqb_spec k "window_size") as [->|]; [tauto|]. reflexivity.
        - intros _ _. exists y0. split; [reflexivity|]. intros k [<-|[<-|[]]]; rewrite L; [rewrite Lw | rewrite Ls]; split; (reflexivity || discriminate). }
      destruct (String.eqb_spec q "interpolation") as [->|]; [|discriminate]. assert (y = x) by now apply interpolation_result. subst y.
      split; [|split; [discriminate|split; discriminate]]. intros k _. now destruct (lookup k x).
  Qed.

  Lemma trigger_all_from p : forall (m m' : mach), check_machine m -> knows m -> NoDup (keys p) -> (forall k, lookup k (m_pipeline m) <> None -> ~ In k (keys p)) ->
    (forall name c, In (name, c) p -> wf c /\ normal c) -> trigger_all (fun n => n) p m = (m', None) ->
    (forall k, ~ In k (keys p) -> lookup k (m_pipeline m') = lookup k (m_pipeline m)) /\
    forall name c, In (name, c) p -> exists x c', c = JDict x /\ lookup name (m_pipeline m') = Some c' /\
      forall c2, merge1 c c' = Some c2 -> exists z, c2 = JDict z /\ from_step name (lookup "matching_cost" (m_pipeline m')) x z.
  Proof.
    induction p as [|[name c] p IH]; intros m m' Hm HK Hk Hd Hc H; cbn [MachineModel.trigger_all] in H.
    - injection H as <-. split; [auto | intros ? ? []].
    - rewrite trigger_check in H by exact Hm. destruct (next (m_state m) name) as [s'|] eqn:En; [|discriminate].
      destruct (call (check_callback name) name c m) as [m1|] eqn:Ec; [|discriminate].
      destruct (Hc name c (or_introl eq_refl)) as [Wc Nc].
      destruct (step_from _ _ _ _ _ Wc Nc HK En Ec) as (x & c' & Ex & Ep & HK1 & F).
      inversion Hk as [|? ? Hnot Hk']; subst c.
      destruct (IH (set_state s' m1) m') as [Lp G]; auto.
      { eapply check_machine_call; eauto. }
      { intros k Hl. cbn [m_pipeline set_state] in Hl. rewrite Ep, lookup_assign in Hl. destruct (String.eqb_spec k name) as [Ek|N]; [rewrite Ek; exact Hnot|].
        intros X. apply (Hd k Hl). now right. }
      { intros n0 c0 Hin. apply (Hc n0). now right. }
      cbn [m_pipeline set_state] in Lp. split.
      + intros k Hn. cbn in Hn. rewrite Lp by tauto. rewrite Ep, lookup_assign. destruct (String.eqb_spec k name) as [Ek|N]; [exfalso; apply Hn; left; congruence | reflexivity].
      + intros n0 c0 [X|Hin]; [|exact (G _ _ Hin)]. injection X as <- <-. exists x, c'. split; [reflexivity|].
        split; [rewrite Lp by exact Hnot; rewrite Ep, lookup_assign, String.eqb_refl; reflexivity|]. intros c2 E2. destruct (F c2 E2) as (z & Ez & Fz).
        exists z. split; [exact Ez|].
        assert (Q : lookup "matching_cost" (m_pipeline m') = lookup "matching_cost" (m_pipeline m1) \/ (name <> "matching_cost" /\ name <> "refinement")).
        { destruct (in_dec string_dec "matching_cost" (keys p)) as [I|I]; [|left; now apply Lp]. right. split; [intros ->; now apply Hnot|].
          intros ->. assert (m_state m = DispMaps) as St by (unfold next in En; destruct (m_state m); cbn in En; congruence).
          destruct (HK (or_intror St)) as (y0 & ? & ? & L0 & _). apply (Hd "matching_cost"); [rewrite L0; discriminate | now right]. }
        destruct Q as [->|[Q1 Q2]]; [exact Fz|]. destruct Fz as (F1 & _ & _ & _). split; [exact F1|]. split; [intros X; contradiction|split; intros X; contradiction].
  Qed.

  (** The step of the accepted configuration and the one of the user. *)
  Lemma saved_step user d m cfg : wf (JDict user) -> check_conf user (new_machine d) = (m, Some cfg) ->
    exists raw p p2, lookup "pipeline" user = Some (JDict raw) /\ merge1 (JDict []) (JDict raw) = Some (JDict p) /\ lookup "pipeline" cfg = Some (JDict p2) /\ keys p2 = keys p /\
      forall n c, lookup n p = Some c -> exists x z, c = JDict x /\ lookup n p2 = Some (JDict z) /\ from_step n (lookup "matching_cost" (m_pipeline m)) x z.
  Proof.
    intros Hw H. destruct (check_conf_parts _ _ _ _ _ _ _ _ _ _ _ Hpandora _ _ _ _ Hw H) as (raw & i2 & cr & p & p2 & Hraw & Hp & _ & _ & Hm & HM & _ & _ & _ & _ & L).
    exists raw, p, p2. split; [exact Hraw|]. split; [exact Hp|]. split; [exact L|]. split; [exact (merged_keys _ _ _ HM)|].
    assert (Wr : wf (JDict raw)) by exact (wf_lookup _ _ _ Hw Hraw).
    assert (Wp : wf (JDict p)) by exact (merge_wf _ _ _ Wr wf_empty Hp).
    assert (Np : normal (JDict p)) by exact (merge_normal _ _ _ Wr normal_empty Hp).
    pose proof (wf_dict_inv _ Wp) as [Kp Vp]. unfold CheckConfModel.machine_check in Hm.
    rewrite (check_conf_spec _ _ _ _ _ p (new_machine d) 0 eq_refl) in Hm.
    set (m0 := set_transitions (copies transitions_check 1) (new_machine d)) in Hm.
    destruct (trigger_all (fun n => n) p m0) as [m1 [e|]] eqn:Et; [discriminate|]. injection Hm as <-.
    destruct (trigger_all_from p m0 m1) as [_ G]; auto.
    { exists 0%nat. reflexivity. } { intros [X|X]; discriminate. } 
    { intros name c Hin. split; [exact (Vp _ _ Hin)|]. exact (normal_lookup _ _ _ Np (In_lookup _ _ _ Kp Hin)). }
    intros n c Hn. destruct (G n c (lookup_In _ _ _ Hn)) as (x & c' & -> & Lc & F).
    pose proof (merged_lookup _ _ _ HM n) as ML. rewrite Hn in ML. destruct ML as (c1 & c2 & L2 & Lq & _ & _ & Hmg & _).
    cbn [m_pipeline set_state set_transitions] in Lq. rewrite Lc in Lq. injection Lq as <-. destruct (F c2 Hmg) as (z & -> & Fz).
    exists x, z. split; [reflexivity|]. split; [exact L2|]. exact Fz.
  Qed.

  (** What the user wrote is read. *)
  Lemma read_lookup u r k : wf (JDict u) -> merge1 (JDict []) (JDict u) = Some (JDict r) ->
    lookup k r = match lookup k u with Some v => merge1 (JDict []) v | None => None end.
  Proof.
    intros Hu H. unfold merge1 in H. cbn [is_dict] in H. rewrite update_conf_dict in H. destruct (upd_items u []) as [r'|] eqn:E; [|discriminate]. injection H as ->.
    pose proof (upd_lookup _ _ _ E (proj1 (wf_dict_inv _ Hu)) k) as L. destruct (lookup k u); [|exact L]. destruct L as [L _]. exact L.
  Qed.

  Section User.
    Variables (user cfg : dict) (d : D) (m : mach).
    Hypothesis Hw : wf (JDict user).
    Hypothesis Hc : check_conf user (new_machine d) = (m, Some cfg).
    (** The step [n] of the user, how it is read, and how it is saved. *)
    Lemma user_step n : get_path ["pipeline"; n] (JDict user) <> None -> exists u x z,
      get_path ["pipeline"; n] (JDict user) = Some (JDict u) /\ wf (JDict u) /\ merge1 (JDict []) (JDict u) = Some (JDict x) /\ get_path ["pipeline"; n] (JDict cfg) = Some (JDict z) /\
      from_step n (lookup "matching_cost" (m_pipeline m)) x z.
    Proof.
      intros Hn. destruct (saved_step _ _ _ _ Hw Hc) as (raw & p & p2 & Hraw & Hp & L & _ & G). cbn [get_path] in *. rewrite Hraw in *. rewrite L.
      assert (Wr : wf (JDict raw)) by exact (wf_lookup _ _ _ Hw Hraw). pose proof (read_lookup _ _ n Wr Hp) as R.
      destruct (lookup n raw) as [v|] eqn:Ev; [|congruence]. pose proof (wf_lookup _ _ _ Wr Ev) as Wv.
      destruct (merge1 (JDict []) v) as [c|] eqn:Em.
      - destruct (G n c R) as (x & z & -> & Lz & F). destruct v as [| | | | | | |?|u]; try discriminate.
        + unfold merge1 in Em. cbn [is_dict] in Em. destruct (conv (JStr _)) eqn:X in Em; try discriminate. exfalso. revert X. unfold conv. repeat destruct (_ =? _); discriminate.
        + exists u, x, z. rewrite Lz. auto 6.
      - exfalso. destruct (is_dict v) eqn:Dv; [|unfold merge1 in Em; rewrite Dv in Em; discriminate].
        destruct (update_empty_total v Dv Wv) as (c & E). unfold merge1 in Em. rewrite Dv, E in Em. discriminate.
    Qed.
    (** The matching cost of the machine and the one that is saved. *)
    Lemma checked_matching_cost y : lookup "matching_cost" (m_pipeline m) = Some (JDict y) ->
      exists z, get_path ["pipeline"; "matching_cost"] (JDict cfg) = Some (JDict z) /\ forall k, In k matching_cost_keys -> lookup k z = lookup k y.
    Proof.
      intros Hy. destruct (saved_step _ _ _ _ Hw Hc) as (raw & p & p2 & Hraw & Hp & L & Kp & G).
      destruct (lookup "matching_cost" p) as [c|] eqn:Ec.
      - destruct (G _ _ Ec) as (x & z & _ & Lz & _ & F & _). exists z. cbn [get_path]. rewrite L, Lz. split; [reflexivity|].
        destruct (F eq_refl) as (_ & y' & E & K). rewrite Hy in E. injection E as <-. exact K.
      - exfalso. destruct (check_conf_parts _ _ _ _ _ _ _ _ _ _ _ Hpandora _ _ _ _ Hw Hc) as (raw' & i2 & cr & p' & p2' & Hraw' & Hp' & _ & _ & Hm & HM & _).
        rewrite Hraw in Hraw'. injection Hraw' as <-. rewrite Hp in Hp'. injection Hp' as <-.
        unfold CheckConfModel.machine_check in Hm. rewrite (check_conf_spec _ _ _ _ _ p (new_machine d) 0 eq_refl) in Hm.
        set (m0 := set_transitions (copies transitions_check 1) (new_machine d)) in Hm.
        destruct (trigger_all (fun n => n) p m0) as [m1 [e|]] eqn:Et; [discriminate|]. injection Hm as <-.
        assert (Wr : wf (JDict raw)) by exact (wf_lookup _ _ _ Hw Hraw).
        assert (Wp : wf (JDict p)) by exact (merge_wf _ _ _ Wr wf_empty Hp).
        assert (Np : normal (JDict p)) by exact (merge_normal _ _ _ Wr normal_empty Hp).
        pose proof (wf_dict_inv _ Wp) as [Kp' Vp].
        destruct (trigger_all_from p m0 m1) as [Lq _]; auto.
        { exists 0%nat. reflexivity. } { intros [X|X]; discriminate. }
        { intros name c Hin. split; [exact (Vp _ _ Hin)|]. exact (normal_lookup _ _ _ Np (In_lookup _ _ _ Kp' Hin)). }
        cbn [m_pipeline set_state set_transitions] in Hy. rewrite Lq in Hy; [discriminate|]. intros X. apply lookup_in in X. congruence.
    Qed.
    (** The values of the user and the absent ones, in the configuration that is read. *)
    Lemma read_value u x k rest v : wf (JDict u) -> merge1 (JDict []) (JDict u) = Some (JDict x) -> get_path (k :: rest) (JDict u) = Some v -> is_dict v = false ->
      exists vk, lookup k x = Some vk /\ get_path rest vk = Some (conv v).
    Proof.
      intros Wu Hm Hg Hv. pose proof (merge_keeps (k :: rest) _ _ v Wu Hm Hg Hv) as X. cbn [get_path] in X. destruct (lookup k x) as [vk|]; [eauto | discriminate].
    Qed.
    Lemma read_method u x : wf (JDict u) -> merge1 (JDict []) (JDict u) = Some (JDict x) -> forall s, s <> "NaN" -> s <> "inf" -> s <> "-inf" ->
      (lookup "refinement_method" x = Some (JStr s) <-> lookup "refinement_method" u = Some (JStr s)).
    Proof.
      intros Wu Hm s N1 N2 N3. rewrite (read_lookup _ _ _ Wu Hm). destruct (lookup "refinement_method" u) as [v|] eqn:E; [|tauto].
      destruct (is_dict v) eqn:Dv.
      - destruct v; try discriminate. unfold merge1. cbn [is_dict]. rewrite update_conf_dict. destruct (upd_items _ _); cbn; split; discriminate.
      - unfold merge1. rewrite Dv. split; intros X.
        + injection X as X. pose proof (conv_reads v) as R. rewrite X in R. inversion R; subst; reflexivity.
        + injection X as ->. f_equal. symmetry. apply reads_conv. apply reads_same; congruence.
    Qed.
    Lemma read_rule u x n k : wf (JDict u) -> merge1 (JDict []) (JDict u) = Some (JDict x) ->
      (other_rule n (lookup "refinement_method" x) k <-> other_rule n (lookup "refinement_method" u) k).
    Proof.
      intros Wu Hm. pose proof (read_method _ _ Wu Hm "optical_flow" ltac:(discriminate) ltac:(discriminate) ltac:(discriminate)).
      pose proof (read_method _ _ Wu Hm "dichotomy" ltac:(discriminate) ltac:(discriminate) ltac:(discriminate)). unfold other_rule. tauto.
    Qed.
    Lemma flow_defaults (f : option json -> dict) method : f = (fun method => match method with Some (JStr s) => if s =? "optical_flow" then [("iterations", JInt 4)] else [] | _ => [] end) ->
      f method = [("iterations", JInt 4)] /\ method = Some (JStr "optical_flow") \/ f method = [] /\ method <> Some (JStr "optical_flow").
    Proof.
      intros ->. destruct method as [[| | | | | |s| |]|]; try (right; split; [reflexivity | discriminate]).
      destruct (String.eqb_spec s "optical_flow") as [->|N]; [left; auto | right; split; [reflexivity|congruence]].
    Qed.
    Lemma read_defaults u x n : wf (JDict u) -> merge1 (JDict []) (JDict u) = Some (JDict x) ->
      defaults n (lookup "refinement_method" x) = defaults n (lookup "refinement_method" u).
    Proof.
      intros Wu Hm. pose proof (read_method _ _ Wu Hm "optical_flow" ltac:(discriminate) ltac:(discriminate) ltac:(discriminate)) as R.
      unfold defaults. destruct (n =? "estimation"); [reflexivity|]. destruct (n =? "matching_cost"); [reflexivity|]. destruct (n =? "disparity"); [reflexivity|].
      set (f := fun method : option json => match method with Some (JStr s) => if s =? "optical_flow" then [("iterations", JInt 4)] else [] | _ => [] end : dict).
      change (f (lookup "refinement_method" x) = f (lookup "refinement_method" u)).
      destruct (flow_defaults f (lookup "refinement_method" x) eq_refl) as [[-> X]|[-> X]], (flow_defaults f (lookup "refinement_method" u) eq_refl) as [[-> U]|[-> U]]; tauto.
    Qed.
  End User.
End Defaults.
