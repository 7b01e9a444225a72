(** Proofs about the whole program: from the checked configuration to the saved maps. *)
From Coq Require Import List String Bool ZArith QArith Lia.
From Verif Require Import Base.Ext Base.PyList Base.Arr Base.Json Base.Dict Model.CommonModel Model.DisparityModel Model.MatchingCostModel Model.DichotomyModel
  Model.RoiModel Model.InputModel Model.ConfigModel Model.DatasetModel Model.EstimationModel Model.InterpolationModel Model.MachineModel Model.CheckConfModel
  Model.PipelineModel Model.WholeModel Model.ImgShiftModel
  Spec.MatchingCostSpec Spec.RoiSpec Spec.PipelineSpec Spec.ConfigSpec Spec.InputSpec Spec.CheckConfSpec Spec.AcceptSpec Spec.WholeSpec
  Proofs.ConfigProofs Proofs.ConfigStepProofs Proofs.MergeProofs Proofs.CheckConfProofs Proofs.AcceptProofs Proofs.MatchingCostProofs Proofs.InputProofs Proofs.WholeProofs Props.InputProps.
Import ListNotations.
Open Scope Z_scope.
Open Scope string_scope.
Open Scope list_scope.

(** * Assignments in a configuration *)
Lemma assign2_spec k1 k2 v cfg d : lookup k1 cfg = Some (JDict d) -> exists cfg', assign2 k1 k2 v cfg = Some cfg' /\
  lookup k1 cfg' = Some (JDict (assign k2 v d)) /\ forall k, k <> k1 -> lookup k cfg' = lookup k cfg.
Proof.
  intros L. unfold assign2. rewrite L. eexists. split; [reflexivity|]. split.
  - rewrite lookup_assign, String.eqb_refl. reflexivity.
  - intros k Hk. rewrite lookup_assign. destruct (k =? k1) eqn:E; [apply String.eqb_eq in E; congruence | reflexivity].
Qed.
Lemma path_dict k k' path cfg v : get_path (k :: k' :: path) (JDict cfg) = Some v -> exists d, lookup k cfg = Some (JDict d).
Proof. cbn [get_path]. destruct (lookup k cfg) as [[]|]; try discriminate. eauto. Qed.
Lemma int_value_json bool_ok j z : int_value bool_ok j z -> (j = JInt z \/ exists b, j = JBool b /\ z = Z.b2z b) /\ is_dict j = false /\ conv j = j.
Proof. intros H. inversion H; subst; (split; [|split; reflexivity]); eauto. Qed.
Lemma int_value_unique bool_ok j a b : int_value bool_ok j a -> int_value bool_ok j b -> a = b.
Proof. intros H1 H2. inversion H1; subst; inversion H2; subst; reflexivity. Qed.
Lemma int_value_as_int bool_ok j z : int_value bool_ok j z -> as_int bool_ok j = Some z.
Proof. apply as_int_value. Qed.

(** * What the checked configuration contains *)
Section Facts.
  Context {D M : Type}.
  Variable bool_ok : bool.
  Variable pandora_check : dict -> option (json * json * json).
  Variable matching_cost_margins refinement_margins : dict -> M.
  Variable disparity_margins : M.
  Variable run_step : callback -> string -> json -> option M -> option json -> option json -> D -> option D.
  Variable can_open_mandatory can_open : json -> bool.
  Variable images_ok : json -> json -> json -> json -> bool.
  Variable image_size : string -> nat * nat.
  Hypothesis Hsize : forall s, (0 < fst (image_size s))%nat /\ (0 < snd (image_size s))%nat.
  Variable open_raster : string -> reader.
  Hypothesis Hpandora : pandora_contract pandora_check.
  Notation check_conf := (check_conf bool_ok pandora_check matching_cost_margins refinement_margins disparity_margins run_step
    can_open_mandatory can_open (check_images_of images_ok) image_size open_raster).
  Variables (user cfg : dict) (d : D) (m : @machine json D M json json) (q : request).
  Hypothesis Hw : wf (JDict user).
  Hypothesis Hc : check_conf user (new_machine d) = (m, Some cfg).
  Hypothesis Ho : asks_others bool_ok user q.
  Variable raw : dict.
  Hypothesis Lraw : lookup "pipeline" user = Some (JDict raw).
  Variables (e r : bool).
  Hypothesis Kraw : keys raw = (if e then ["estimation"] else []) ++ ["matching_cost"; "disparity"] ++ (if r then ["refinement"] else []).

  Definition init_of (j : json) : cfg_init :=
    match j with JInt v => CInt v | JBool b => CInt (Z.b2z b) | JStr s => CFile (open_raster s) | _ => COther end.
  Lemma asked_middle j range row col v : asked (mkCfgDisp (init_of j) range) row col v -> middle open_raster j row col v.
  Proof.
    unfold asked, middle. cbn [cd_init]. destruct j; cbn; try tauto.
    - intros ->. left. constructor.
    - intros ->. left. constructor.
    - intros (_ & _ & _ & ->). right. eauto.
  Qed.
  Lemma middle_unique j row col v w : middle open_raster j row col v -> middle open_raster j row col w -> v = w.
  Proof.
    intros [H|(s & -> & ->)] [K|(t & E & ->)].
    - inversion H; subst; inversion K; reflexivity.
    - subst. inversion H.
    - inversion K.
    - now injection E as <-.
  Qed.
  Definition input_facts (input l rg : dict) (lpath rpath : string) (row col : dict) : Prop :=
    lookup "input" cfg = Some (JDict input) /\ lookup "left" input = Some (JDict l) /\ lookup "img" l = Some (JStr lpath) /\
    lookup "right" input = Some (JDict rg) /\ lookup "img" rg = Some (JStr rpath) /\
    (exists a b, images_ok (JStr lpath) (JStr rpath) a b = true) /\
    lookup "row_disparity" input = Some (JDict row) /\ lookup "col_disparity" input = Some (JDict col) /\
    cfg_disp_of open_raster row = mkCfgDisp (init_of (q_row_init q)) (q_row_range q) /\
    cfg_disp_of open_raster col = mkCfgDisp (init_of (q_col_init q)) (q_col_range q) /\
    0 <= q_row_range q /\ 0 <= q_col_range q /\ check_disparities input = true /\
    disparities_inside open_raster (fst (image_size lpath)) (snd (image_size lpath)) (q_row_init q) (q_row_range q) (q_col_init q) (q_col_range q).

  Lemma required_unique k u w v : required k u v -> lookup k u = Some w -> v = conv w.
  Proof. intros (w' & L & _ & R) L2. rewrite L in L2. injection L2 as ->. now apply reads_conv. Qed.
  Lemma required_image k u s : required k u (JStr s) -> lookup k u = Some (JStr s).
  Proof.
    intros (w & L & _ & R). apply reads_conv in R. rewrite L. f_equal. destruct w; cbn in R; try discriminate.
    destruct (s0 =? "NaN"); [discriminate|]. destruct (s0 =? "inf"); [discriminate|]. destruct (s0 =? "-inf"); [discriminate|]. congruence.
  Qed.
  Lemma checked_disparity k (Hk : k = "row_disparity" \/ k = "col_disparity") input j ra init range :
    written ["input"; k; "init"] user j -> value bool_ok ["input"; k; "range"] user ra ->
    lookup "input" cfg = Some (JDict input) -> disparity_accepted bool_ok can_open false (lookup k input) init range ->
    exists x, lookup k input = Some (JDict x) /\ init = j /\ range = ra /\ cfg_disp_of open_raster x = mkCfgDisp (init_of j) ra /\ 0 <= ra /\
      ((exists z, constant j z) \/ (exists s, j = JStr s) -> check_disparity_types (JDict x) = true).
  Proof.
    intros (w & Gw & Dw & Rw) (jr & Gr & Ir) Li (x & rr & [Lx|(Hf & _)] & On & [Q1 Q2] & _ & Irr & Hr); [|discriminate].
    apply reads_conv in Rw. subst j. destruct (int_value_json _ _ _ Ir) as (_ & Dr & Er).
    pose proof (kept_input _ _ _ _ _ _ _ _ _ _ _ Hpandora _ _ _ _ Hw Hc _ _ Gw Dw) as G1. pose proof (kept_input _ _ _ _ _ _ _ _ _ _ _ Hpandora _ _ _ _ Hw Hc _ _ Gr Dr) as G2. rewrite Er in G2.
    cbn [get_path] in G1, G2. rewrite Li in G1, G2. rewrite Lx in G1, G2.
    destruct (lookup "init" x) as [i|] eqn:E1; [|discriminate]. injection G1 as ->. destruct (lookup "range" x) as [r0|] eqn:E2; [|discriminate]. injection G2 as ->.
    rewrite (required_unique _ _ _ _ Q1 E1), conv_conv. rewrite (required_unique _ _ _ _ Q2 E2), Er in Irr.
    exists x. split; [exact Lx|]. split; [reflexivity|]. assert (range = ra) as -> by (eapply int_value_unique; eauto). split; [reflexivity|].
    assert (Hx : cfg_disp_of open_raster x = mkCfgDisp (init_of (conv w)) ra).
    { unfold cfg_disp_of. rewrite E1, E2. f_equal. destruct (proj1 (int_value_json _ _ _ Ir)) as [->|(b & -> & ->)]; reflexivity. }
    split; [exact Hx|]. split; [exact Hr|]. intros Hj. unfold check_disparity_types.
    assert (S : same_keys x ["init"; "range"] = true).
    { unfold same_keys. apply andb_true_iff. split; apply forallb_forall.
      - intros k0 Hk0. apply existsb_exists. exists k0. split; [|apply String.eqb_refl]. apply On. now apply lookup_in in Hk0.
      - intros k0 Hk0. apply existsb_exists. exists k0. split; [|apply String.eqb_refl]. apply lookup_in.
        cbn in Hk0. destruct Hk0 as [<-|[<-|[]]]; congruence. }
    rewrite S. cbn [negb]. rewrite E1, E2.
    assert (I1 : DatasetModel.is_int (conv w) || DatasetModel.is_str (conv w) = true).
    { destruct Hj as [(z & Hz)|(s & ->)]; [inversion Hz; reflexivity | reflexivity]. }
    rewrite I1. cbn [negb]. destruct (proj1 (int_value_json _ _ _ Ir)) as [->|(b & -> & ->)]; cbn; [|reflexivity].
    destruct (Z.ltb_spec ra 0); [lia | reflexivity].
  Qed.
  Lemma checked_input : asks bool_ok user q -> e = false -> exists input l rg lpath rpath row col, input_facts input l rg lpath rpath row col.
  Proof.
    intros Ha He0. destruct (check_conf_fixed _ _ _ _ _ _ _ _ _ _ _ Hpandora _ _ _ _ Hw Hc) as (i & cr & p & Hc2 & Wc & Li & _ & _ & _ & Lp & _).
    assert (Hacc : accepted bool_ok pandora_check can_open_mandatory can_open images_ok image_size open_raster cfg).
    { apply (check_conf_accepts bool_ok pandora_check Hpandora matching_cost_margins refinement_margins disparity_margins run_step can_open_mandatory can_open images_ok image_size Hsize open_raster cfg d Wc). eauto. }
    destruct Hacc as (raw2 & p2 & meth & input0 & rn & Lr2 & Rd & _ & _ & Li2 & Hin & _).
    rewrite Lp in Lr2. injection Lr2 as <-.
    destruct (kept_pipeline _ _ _ _ _ _ _ _ _ _ _ Hpandora _ _ _ _ Hw Hc raw Lraw e r Kraw) as (ce & c1 & c2 & cr2 & p0 & Lp0 & He & Hr & _).
    rewrite Lp in Lp0. injection Lp0 as ->. destruct ce as [ce|]; [assert (X : e = true) by (apply He; discriminate); congruence|].
    assert (Est : lookup "estimation" p2 = None).
    { inversion Rd as [? ? Hd|? ? K Hv]; subst; [discriminate|]. destruct (lookup "estimation" p2) eqn:E; [|reflexivity].
      destruct (lookup_some_keys _ _ _ _ K E) as (w & Lw). destruct cr2; discriminate. }
    rewrite Est in Hin.
    destruct Hin as (u & jl & jr & left & right & ln & lm & rm & ri & rr & ci & cr1 & -> & _ & Ll & (ul & -> & _ & Ql & _) & Lrg & (ur & -> & _ & Qr & _) & Him & Hrow & Hcol & Hins).
    destruct Ha as (A1 & A2 & A3 & A4 & _).
    rewrite Li in Li2. injection Li2 as ->.
    destruct (checked_disparity "row_disparity" (or_introl eq_refl) u _ _ _ _ A1 A2 Li Hrow) as (row & Lrow & -> & -> & Er & Nr & Tr).
    destruct (checked_disparity "col_disparity" (or_intror eq_refl) u _ _ _ _ A3 A4 Li Hcol) as (col & Lcol & -> & -> & Ec & Nc & Tc).
    specialize (Hins eq_refl). exists u, ul, ur, left, right, row, col. unfold input_facts.
    split; [exact Li|]. split; [exact Ll|]. split; [now apply required_image|]. split; [exact Lrg|]. split; [now apply required_image|]. split; [eauto|].
    split; [exact Lrow|]. split; [exact Lcol|]. split; [exact Er|]. split; [exact Ec|]. split; [exact Nr|]. split; [exact Nc|]. split; [|exact Hins].
    unfold check_disparities. rewrite Lrow, Lcol. rewrite Tr, Tc.
    - unfold check_disparity_presence, missing. cbn [List.filter].
      assert (forall k v, lookup k u = Some v -> existsb (fun k' => k =? k') (keys u) = true) as X.
      { intros k v L. apply existsb_exists. exists k. split; [|apply String.eqb_refl]. apply lookup_in. congruence. }
      rewrite (X _ _ Lrow), (X _ _ Lcol). reflexivity.
    - destruct Hins as [(a & b & _ & Hb & _)|(a & b & _ & Hb & _)]; eauto.
    - destruct Hins as [(a & b & Hb & _)|(a & b & Hb & _)]; eauto.
  Qed.
  Lemma checked_zone z : q_zone q = Some z -> exists roi, lookup "ROI" cfg = Some (JDict roi) /\
    (forall mg cfg', lookup "ROI" cfg' = Some (JDict (assign "margins" (margins_json mg) roi)) -> roi_of bool_ok cfg' = Some (mkRoi (z_c0 z) (z_c1 z) (z_r0 z) (z_r1 z) mg)) /\
    0 <= z_c0 z <= z_c1 z /\ 0 <= z_r0 z <= z_r1 z.
  Proof.
    intros Hz. destruct Ho as (_ & A & _). unfold asks_zone in A. rewrite Hz in A. destruct A as (A1 & A2 & A3 & A4).
    destruct (check_conf_fixed _ _ _ _ _ _ _ _ _ _ _ Hpandora _ _ _ _ Hw Hc) as (i & cr & p & Hc2 & Wc & _ & _ & Hcr & Lcr & _).
    assert (V : forall a b v, value bool_ok ["ROI"; a; b] user v -> exists j, get_path ["ROI"; a; b] (JDict cfg) = Some j /\ int_value bool_ok j v).
    { intros a b v (j & G & I). destruct (int_value_json _ _ _ I) as (_ & Dj & Ej). exists j. split; [|exact I].
      pose proof (kept_roi _ _ _ _ _ _ _ _ _ _ _ Hpandora _ _ _ _ Hw Hc _ _ G Dj) as K. now rewrite Ej in K. }
    destruct (V _ _ _ A1) as (j1 & G1 & I1). destruct (V _ _ _ A2) as (j2 & G2 & I2). destruct (V _ _ _ A3) as (j3 & G3 & I3). destruct (V _ _ _ A4) as (j4 & G4 & I4).
    destruct (path_dict _ _ _ _ _ G1) as (roi & Lr). exists roi. split; [exact Lr|]. split.
    - intros mg cfg' L'. unfold roi_of, int_at. destruct mg as [[[m0 m1] m2] m3].
      cbn [get_path]. rewrite L'. rewrite !lookup_assign. cbn [String.eqb Ascii.eqb Bool.eqb].
      cbn [get_path] in G1, G2, G3, G4. rewrite Lr in G1, G2, G3, G4. rewrite G1, G2, G3, G4. cbn [bind].
      rewrite (int_value_as_int _ _ _ I1), (int_value_as_int _ _ _ I2), (int_value_as_int _ _ _ I3), (int_value_as_int _ _ _ I4). reflexivity.
    - destruct (roi_again _ _ _ Wc Hcr) as (Hroi & _). rewrite Lr in Hroi. destruct Hroi as (roi' & -> & Wr & Ck). rewrite Lr in Lcr. cbn in Lcr. injection Lcr as <-.
      apply (roi_accepts _ _ Wr) in Ck. destruct Ck as [Ck _].
      cbn [get_path] in G1, G2, G3, G4. rewrite Lr in G1, G2, G3, G4.
      assert (Ax : forall k, k = "row" \/ k = "col" -> forall a b va vb, match lookup k roi with Some v => match v with JDict d0 => match lookup "first" d0 with Some x => Some x | None => None end | _ => None end | None => None end = Some a ->
         match lookup k roi with Some v => match v with JDict d0 => match lookup "last" d0 with Some x => Some x | None => None end | _ => None end | None => None end = Some b ->
         int_value bool_ok a va -> int_value bool_ok b vb -> 0 <= va <= vb).
      { intros k Hk a b va vb Ea Eb Ia Ib. destruct (lookup k roi) as [v|] eqn:Ek; [|discriminate]. destruct (Ck k v Ek) as (bb & P & Hin & HP).
        assert (P = axis_ok bool_ok) as -> by (cbn in Hin; destruct Hin as [X|[X|[]]]; congruence).
        destruct HP as (dd & f & l & -> & [H1 _] & Hf & Hl). destruct (lookup "first" dd) as [x|] eqn:E1; [|discriminate]. injection Ea as ->. destruct (lookup "last" dd) as [y|] eqn:E2; [|discriminate]. injection Eb as ->.
        destruct (H1 _ _ E1) as (? & ? & In1 & P1). destruct (H1 _ _ E2) as (? & ? & In2 & P2). cbn in In1, In2.
        destruct In1 as [X|[X|[]]]; [|congruence]. injection X as <- <-. destruct In2 as [X|[X|[]]]; [congruence|]. injection X as <- <-.
        rewrite (int_value_unique _ _ _ _ Ia P1), (int_value_unique _ _ _ _ Ib P2). lia. }
      split; [apply (Ax "col" (or_intror eq_refl) j3 j4) | apply (Ax "row" (or_introl eq_refl) j1 j2)]; assumption.
  Qed.

  (** A value of the pixels without disparity, once checked. *)
  Definition stored (j : json) : Prop := integer bool_ok (fun _ => True) j \/ (exists f, j = JFloat f) \/ one_special j.
  Lemma checked_steps : exists ce x1 x2 cr c1' c2' s w,
    lookup "pipeline" cfg = Some (JDict (pipeline_of ce (JDict x1) (JDict x2) cr)) /\ (ce <> None <-> e = true) /\ (cr <> None <-> r = true) /\
    (forall j, ce = Some j -> exists x y, j = JDict x /\ wf (JDict x) /\ estimation_check_conf bool_ok x = Some y) /\
    matching_cost_init pandora_check x1 = Some c1' /\ mc_steps bool_ok (lookup "step" c1') = Some (q_row_step q, q_col_step q) /\
    (exists c w0 s0 o0, pandora_check c = Some (w0, s0, o0) /\ lookup "subpix" c1' = Some s0 /\ lookup "step" c1' = Some s /\ lookup "window_size" c1' = Some w) /\
    mc_steps bool_ok (get_path ["pipeline"; "matching_cost"; "step"] (JDict cfg)) = Some (q_row_step q, q_col_step q) /\
    1 <= q_row_step q /\ 1 <= q_col_step q /\
    disparity_check_conf bool_ok x2 = Some c2' /\ lookup "invalid_disparity" c2' = Some (q_invalid q) /\
    get_path ["pipeline"; "disparity"; "invalid_disparity"] (JDict cfg) = Some (q_invalid q) /\ stored (q_invalid q) /\
    m_state m = Begin /\ m_transitions m = [] /\ m_step m = Some s /\ m_window m = Some w /\
    match cr with
    | None => m_non_cumulative m = []
    | Some c => exists x cr', c = JDict x /\ wf (JDict x) /\ refinement_init bool_ok (Some s) w x = Some cr' /\ m_non_cumulative m = [("refinement", refinement_margins cr')]
    end.
  Proof.
    destruct Ho as (A5 & _ & A7).
    destruct (kept_step _ _ _ _ _ _ _ _ _ _ _ Hpandora _ _ _ _ Hw Hc raw Lraw e r Kraw _ _ A5) as (ja & jb & Gs & Ia & Ib).
    destruct (kept_invalid _ _ _ _ _ _ _ _ _ _ _ Hpandora _ _ _ _ Hw Hc raw Lraw e r Kraw _ A7) as (Gi & Ei).
    destruct (kept_pipeline _ _ _ _ _ _ _ _ _ _ _ Hpandora _ _ _ _ Hw Hc raw Lraw e r Kraw) as (ce & c1 & c2 & cr & p0 & Lp0 & He & Hr & _).
    destruct (check_conf_fixed _ _ _ _ _ _ _ _ _ _ _ Hpandora _ _ _ _ Hw Hc) as (i & cr0 & p & _ & _ & _ & _ & _ & _ & Lp & Wp & _ & Hm & _).
    rewrite Lp in Lp0. injection Lp0 as ->.
    destruct (checked_machine _ _ _ _ _ _ _ _ _ _ _ Hm) as (e' & c1' & s & w & mg1 & c2' & mg2 & r' & E0 & E1 & E2 & E3 & _ & Ms & Mt & Mst & Mw & _ & Mn).
    unfold mc_conf in E1. destruct c1 as [| | | | | | | |x1]; try discriminate. destruct (matching_cost_init pandora_check x1) as [y1|] eqn:Em; [|discriminate].
    destruct (lookup "step" y1) as [st|] eqn:Est; [|discriminate]. destruct (lookup "window_size" y1) as [ws|] eqn:Ews; [|discriminate]. injection E1 as <- <- <- _.
    unfold disp_conf in E2. destruct c2 as [| | | | | | | |x2]; try discriminate. destruct (disparity_check_conf bool_ok x2) as [y2|] eqn:Ed; [|discriminate]. injection E2 as <- _.
    exists ce, x1, x2, cr, y1, y2, st, ws. split; [exact Lp|]. split; [exact He|]. split; [exact Hr|]. split.
    { intros j ->. cbn [checked_estimation] in E0. destruct e' as [e'|]; [|contradiction]. unfold est_conf in E0. destruct j as [| | | | | | | |x]; try discriminate.
      exists x. destruct (estimation_check_conf bool_ok x) as [y|]; [|discriminate]. exists y. split; [reflexivity|]. split; [|reflexivity].
      apply (fun L => wf_lookup "estimation" _ _ Wp L). reflexivity. }
    split; [exact Em|].
    assert (Gs' : lookup "step" x1 = Some (JList [ja; jb])).
    { cbn [get_path] in Gs. rewrite Lp in Gs. unfold pipeline_of in Gs. destruct ce; cbn [lookup app String.eqb Ascii.eqb Bool.eqb get_path] in Gs; (destruct (lookup "step" x1); [exact Gs | discriminate]). }
    assert (Gi' : lookup "invalid_disparity" x2 = Some (q_invalid q)).
    { cbn [get_path] in Gi. rewrite Lp in Gi. unfold pipeline_of in Gi. destruct ce; cbn [lookup app String.eqb Ascii.eqb Bool.eqb get_path] in Gi; (destruct (lookup "invalid_disparity" x2); [exact Gi | discriminate]). }
    destruct (matching_cost_result _ _ _ Em) as (mm & ja' & jb' & w0 & s0 & o0 & _ & _ & Hst & Na & Nb & Hp & Ey1). rewrite Gs' in Hst. injection Hst as <- <-.
    assert (Es : mc_steps bool_ok (Some (JList [ja; jb])) = Some (q_row_step q, q_col_step q)).
    { cbn. now rewrite (int_value_as_int _ _ _ Ia), (int_value_as_int _ _ _ Ib). }
    split; [rewrite Ey1; exact Es|]. split; [exists (assign "step" jb x1), w0, s0, o0; split; [exact Hp |]; split; [rewrite Ey1; reflexivity|]; split; [exact Est | exact Ews]|]. split; [rewrite Gs; exact Es|].
    split; [inversion Na; subst; inversion Ia; subst; lia|]. split; [inversion Nb; subst; inversion Ib; subst; lia|].
    assert (W2 : wf (JDict x2)). { apply (fun L => wf_lookup "disparity" _ _ Wp L). destruct ce, cr; reflexivity. }
    assert (N2 := proj1 (wf_dict_inv _ W2)). destruct (disparity_again _ _ _ N2 Ed) as [Ey2 _].
    assert (NN : forall s0, q_invalid q = JStr s0 -> (s0 =? "NaN") = false).
    { intros s1 E. destruct (s1 =? "NaN") eqn:En; [|reflexivity]. rewrite E in Ei. cbn in Ei. rewrite En in Ei. discriminate. }
    split; [exact Ed|]. split. { rewrite Ey2, disparity_lookup, Gi'. cbn. destruct (q_invalid q) eqn:Eq; try reflexivity. rewrite (NN _ eq_refl). reflexivity. }
    split; [exact Gi|]. split.
    { assert (Hd : disparity_check_conf bool_ok x2 <> None) by congruence. apply (disparity_accepts bool_ok _ N2) in Hd. destruct Hd as [Hd _].
      destruct (Hd _ _ Gi') as (b & P & Hin & HP). cbn in Hin. destruct Hin as [X|[X|[]]]; [congruence|]. injection X as <- <-.
      destruct HP as [E|HP]; [|exact HP]. specialize (NN _ E). discriminate. }
    split; [exact Ms|]. split; [exact Mt|]. split; [exact Mst|]. split; [exact Mw|].
    destruct cr as [c|]; cbn [checked_refinement] in E3; destruct r' as [[c' mg]|]; try contradiction; [|exact Mn].
    unfold ref_conf in E3. destruct c as [| | | | | | | |x]; try discriminate. destruct (refinement_init bool_ok (Some st) ws x) as [y|] eqn:Er; [|discriminate]. injection E3 as <- <-.
    exists x, y. split; [reflexivity|]. split; [|auto]. apply (fun L => wf_lookup "refinement" _ _ Wp L). destruct ce; reflexivity.
  Qed.
  (** With an estimation and no disparity written by the user. *)
  Lemma estimation_flag : e = true -> flag_of raw = true.
  Proof.
    intros ->. unfold flag_of. assert (K : lookup "estimation" raw <> None) by (apply lookup_in; fold (keys raw); rewrite Kraw; now left).
    destruct (lookup "estimation" raw) as [v|] eqn:L; [|now elim K]. destruct v; try reflexivity. exfalso.
    destruct (kept_pipeline _ _ _ _ _ _ _ _ _ _ _ Hpandora _ _ _ _ Hw Hc raw Lraw true r Kraw) as (ce & c1 & c2 & cr & p & _ & _ & _ & Mp & Kp & _ & Hm).
    destruct (keys_pipeline raw true r Kraw p Kp) as (ce0 & c10 & c20 & cr0 & Ep & He0 & _).
    assert (G : get_path ["estimation"] (JDict p) = Some (conv JNull)).
    { apply (merge_keeps ["estimation"] (JDict raw)); [exact (wf_lookup _ _ _ Hw Lraw) | exact Mp | cbn [get_path]; now rewrite L | reflexivity]. }
    rewrite Ep in Hm. destruct (checked_machine _ _ _ _ _ _ _ _ _ _ _ Hm) as (e' & _ & _ & _ & _ & _ & _ & _ & E0 & _).
    destruct ce0 as [ce0|]; [|now apply (proj2 He0 eq_refl)]. cbn [get_path] in G. rewrite Ep in G. cbn in G. injection G as ->.
    destruct e'; [discriminate | contradiction].
  Qed.
  Lemma checked_input_estimation : e = true -> get_path ["input"; "row_disparity"] (JDict user) = None -> get_path ["input"; "col_disparity"] (JDict user) = None ->
    exists input l rg lpath rpath, lookup "input" cfg = Some (JDict input) /\ lookup "left" input = Some (JDict l) /\ lookup "img" l = Some (JStr lpath) /\
    lookup "right" input = Some (JDict rg) /\ lookup "img" rg = Some (JStr rpath) /\ (exists a b, images_ok (JStr lpath) (JStr rpath) a b = true) /\
    lookup "row_disparity" input = Some (JDict [("init", JInt (-9997)); ("range", JInt 2)]) /\ lookup "col_disparity" input = Some (JDict [("init", JInt (-9997)); ("range", JInt 2)]).
  Proof.
    intros He Nr Nc. destruct (check_conf_fixed _ _ _ _ _ _ _ _ _ _ _ Hpandora _ _ _ _ Hw Hc) as (i & cr & p & Hc2 & Wc & Li & _ & _ & _ & Lp & _).
    assert (Hacc : accepted bool_ok pandora_check can_open_mandatory can_open images_ok image_size open_raster cfg).
    { apply (check_conf_accepts bool_ok pandora_check Hpandora matching_cost_margins refinement_margins disparity_margins run_step can_open_mandatory can_open images_ok image_size Hsize open_raster cfg d Wc). eauto. }
    destruct Hacc as (raw2 & p2 & meth & input0 & rn & Lr2 & Rd & _ & _ & Li2 & Hin & _).
    destruct Hin as (u & jl & jr & left & right & ln & lm & rm & ri & rr & ci & cr1 & -> & _ & Ll & (ul & -> & _ & Ql & _) & Lrg & (ur & -> & _ & Qr & _) & Him & _).
    rewrite Li in Li2. injection Li2 as ->. exists u, ul, ur, left, right.
    split; [exact Li|]. split; [exact Ll|]. split; [now apply required_image|]. split; [exact Lrg|]. split; [now apply required_image|]. split; [eauto|].
    destruct (check_conf_parts _ _ _ _ _ _ _ _ _ _ _ Hpandora _ _ _ _ Hw Hc) as (raw' & i2 & cr' & p' & p2' & L1 & _ & Hi & _ & _ & _ & _ & _ & L & _).
    rewrite Lraw in L1. injection L1 as <-. rewrite Li in L. injection L as <-. rewrite (estimation_flag He) in Hi.
    unfold get_config_input in Hi. destruct (lookup "input" user) as [i|] eqn:Lu; [|discriminate].
    unfold CheckConfModel.check_input_section in Hi. cbn [lookup String.eqb Ascii.eqb Bool.eqb] in Hi.
    destruct (complete_input true (JDict [("input", i)])) as [[| | | | | | | |c]|] eqn:Ec; try discriminate.
    assert (Ec2 : c = [("input", JDict u)]).
    { destruct (validate _ c); [|discriminate]. destruct (lookup "input" c) as [[]|]; try discriminate. destruct (_ && _); [|discriminate]. now injection Hi. }
    subst c. destruct (is_dict i) eqn:X.
    2: { exfalso. unfold complete_input, default_short_configuration_input, default_configuration_disp in Ec. rewrite one_section, merge_leaf in Ec by exact X.
      cbn [option_map] in Ec. assert (Y := conv_leaf i X). rewrite one_section, merge_leaf in Ec by exact Y. cbn [option_map] in Ec. rewrite conv_conv in Ec.
      injection Ec as Ec. rewrite Ec in Y. discriminate. }
    destruct i as [| | | | | | | |i]; try discriminate X.
    destruct (complete_fields true i u (wf_lookup _ _ _ Hw Lu) Ec) as (_ & F & _). cbn [get_path] in Nr, Nc. rewrite Lu in Nr, Nc.
    rewrite !F. unfold field_of. destruct (lookup "row_disparity" i); [discriminate|]. destruct (lookup "col_disparity" i); [discriminate|]. split; reflexivity.
  Qed.
End Facts.

(** * The images and the grids that are read *)
Section Datasets.
  Context {px : Type}.
  Variable bool_ok : bool.
  Variable image_size : string -> nat * nat.
  Variable open_raster : string -> reader.
  Variable load : dict -> Z -> nat -> Z -> nat -> image px.
  Variable transform_of : dict -> option affine.
  Notation prepare_roi := (prepare_roi bool_ok open_raster).
  Notation create_datasets := (create_datasets image_size open_raster load transform_of).
  Notation init_of := (init_of open_raster).
  Variables (cfg : dict) (q : request).
  Variables (rows cols : nat).
  Hypothesis Hrows : (1 <= rows)%nat.
  Hypothesis Hcols : (1 <= cols)%nat.
  Variables (row col : cfg_disp).
  Hypothesis Drow : row = mkCfgDisp (init_of (q_row_init q)) (q_row_range q).
  Hypothesis Dcol : col = mkCfgDisp (init_of (q_col_init q)) (q_col_range q).
  Hypothesis Nrow : 0 <= q_row_range q.
  Hypothesis Ncol : 0 <= q_col_range q.
  (** Two constants, or two files of the size of the image. *)
  Definition sized (s : string) : Prop := rd_count (open_raster s) = 1%nat /\ a2_n0 (rd_band (open_raster s)) = rows /\ a2_n1 (rd_band (open_raster s)) = cols.
  Definition two_forms : Prop :=
    (exists a b, constant (q_row_init q) a /\ constant (q_col_init q) b) \/ (exists a b, q_row_init q = JStr a /\ q_col_init q = JStr b /\ sized a /\ sized b).
  Lemma inside_forms : disparities_inside open_raster rows cols (q_row_init q) (q_row_range q) (q_col_init q) (q_col_range q) -> two_forms.
  Proof.
    intros [(a & b & Ha & Hb & _)|(a & b & Ea & Eb & G1 & G2)]; [left; eauto|]. right. exists a, b. unfold sized. destruct G1 as (? & ? & ? & _), G2 as (? & ? & ? & _). auto 10.
  Qed.
  Hypothesis Hinside : two_forms.

  Definition with_margins (z : zone) (mg : Z * Z * Z * Z) : roi := mkRoi (z_c0 z) (z_c1 z) (z_r0 z) (z_r1 z) mg.
  Definition positive (mg : Z * Z * Z * Z) : Prop := let '(a, b, c, d) := mg in 0 <= a /\ 0 <= b /\ 0 <= c /\ 0 <= d.
  (** Margins that contain the displacements of every pixel. *)
  Definition reaching (mg : Z * Z * Z * Z) : Prop := let '(lft, up, rgt, down) := mg in
    (forall x y v, 0 <= x < Z.of_nat rows -> 0 <= y < Z.of_nat cols ->
      (middle open_raster (q_row_init q) x y v -> - up <= v - q_row_range q /\ v + q_row_range q <= down) /\
      (middle open_raster (q_col_init q) x y v -> - lft <= v - q_col_range q /\ v + q_col_range q <= rgt)) /\
    (forall a b, constant (q_row_init q) a -> constant (q_col_init q) b ->
      Z.abs (a - q_row_range q) <= up /\ Z.abs (a + q_row_range q) <= down /\ Z.abs (b - q_col_range q) <= lft /\ Z.abs (b + q_col_range q) <= rgt).
  Lemma constant_unique j a b : constant j a -> constant j b -> a = b.
  Proof. intros H K. inversion H; subst; inversion K; reflexivity. Qed.
  Lemma roi_disparities : exists dc dr, roi_disparity col = Some dc /\ roi_disparity row = Some dr /\
    forall r, positive (roi_mg r) -> exists mg, get_roi_processing r dc dr = Some (mkRoi (roi_c0 r) (roi_c1 r) (roi_r0 r) (roi_r1 r) mg, mkRoi (roi_c0 r) (roi_c1 r) (roi_r0 r) (roi_r1 r) mg) /\
      positive mg /\ reaching mg.
  Proof.
    rewrite Drow, Dcol. unfold roi_disparity. cbn [cd_init cd_range].
    destruct Hinside as [(a & b & Ha & Hb)|(a & b & Ea & Eb & G1 & G2)].
    - assert (X : forall j v, constant j v -> init_of j = CInt v) by (intros j v H; inversion H; reflexivity). rewrite (X _ _ Ha), (X _ _ Hb).
      do 2 eexists. split; [reflexivity|]. split; [reflexivity|]. intros r. unfold get_roi_processing. cbn [same_kind d_init disp_min disp_max d_range]. destruct (roi_mg r) as [[[m0 m1] m2] m3].
      intros (P0 & P1 & P2 & P3). eexists. split; [reflexivity|]. split; [cbn; lia|]. unfold reaching. split.
      + intros x y v _ _. split.
        * intros [Hv|(s & Es & _)]; [rewrite (constant_unique _ _ _ Hv Ha); lia | rewrite Es in Ha; inversion Ha].
        * intros [Hv|(s & Es & _)]; [rewrite (constant_unique _ _ _ Hv Hb); lia | rewrite Es in Hb; inversion Hb].
      + intros a' b' Ha' Hb'. rewrite (constant_unique _ _ _ Ha' Ha), (constant_unique _ _ _ Hb' Hb). lia.
    - rewrite Ea, Eb. cbn [WholeRunProofs.init_of]. do 2 eexists. split; [reflexivity|]. split; [reflexivity|]. destruct G1 as (_ & S1 & S2), G2 as (_ & S3 & S4).
      destruct (grid_min_total (rd_band (open_raster b))) as (x1 & E1); try lia. destruct (grid_max_total (rd_band (open_raster b))) as (x2 & E2); try lia.
      destruct (grid_min_total (rd_band (open_raster a))) as (x3 & E3); try lia. destruct (grid_max_total (rd_band (open_raster a))) as (x4 & E4); try lia.
      intros r. unfold get_roi_processing, disp_min, disp_max. cbn [same_kind d_init d_range]. rewrite E1, E2, E3, E4. cbn [option_map]. destruct (roi_mg r) as [[[m0 m1] m2] m3].
      intros (P0 & P1 & P2 & P3). eexists. split; [reflexivity|]. split; [cbn; lia|]. unfold reaching. rewrite Ea, Eb. split; [|intros ? ? H; inversion H].
      apply grid_min_spec in E1, E3. apply grid_max_spec in E2, E4. destruct E1 as [_ E1], E2 as [_ E2], E3 as [_ E3], E4 as [_ E4].
      intros x y v Hx Hy. split; (intros [Hv|(s & Es & ->)]; [inversion Hv|]); injection Es as <-.
      + assert (I : in2 (rd_band (open_raster a)) (Z.to_nat x) (Z.to_nat y)) by (unfold in2; rewrite S1, S2; lia). specialize (E3 _ _ I). specialize (E4 _ _ I). lia.
      + assert (I : in2 (rd_band (open_raster b)) (Z.to_nat x) (Z.to_nat y)) by (unfold in2; rewrite S3, S4; lia). specialize (E1 _ _ I). specialize (E2 _ _ I). lia.
  Qed.

  (** The configuration once the margins are written and the ROI to read. *)
  Definition zone_ready (cfg2 : dict) (rr : option roi) : Prop :=
    match q_zone q with
    | None => rr = None /\ lookup "ROI" cfg2 = None
    | Some z => exists mg j, rr = Some (with_margins z mg) /\ positive mg /\ lookup "ROI" cfg2 = Some j /\ roi_of bool_ok cfg2 = Some (with_margins z mg)
    end.
  Variables (input : dict).
  Hypothesis Linput : lookup "input" cfg = Some (JDict input).
  Variables (drow dcol : dict).
  Hypothesis Lrow : lookup "row_disparity" input = Some (JDict drow).
  Hypothesis Lcol : lookup "col_disparity" input = Some (JDict dcol).
  Hypothesis Erow : cfg_disp_of open_raster drow = row.
  Hypothesis Ecol : cfg_disp_of open_raster dcol = col.
  Hypothesis Hzone : forall z, q_zone q = Some z -> exists roi, lookup "ROI" cfg = Some (JDict roi) /\
    (forall mg cfg', lookup "ROI" cfg' = Some (JDict (assign "margins" (margins_json mg) roi)) -> roi_of bool_ok cfg' = Some (with_margins z mg)).
  Hypothesis Hnozone : q_zone q = None -> lookup "ROI" cfg = None.
  Lemma disparity_here cfg' k x : lookup "input" cfg' = Some (JDict input) -> lookup k input = Some (JDict x) -> disparity_at open_raster k cfg' = Some (cfg_disp_of open_raster x).
  Proof. intros L L2. unfold disparity_at. cbn [get_path]. rewrite L, L2. reflexivity. Qed.
  Lemma assign_twice (k : string) (v w : json) l : assign k w (assign k v l) = assign k w l.
  Proof.
    induction l as [|[k' x] l IH]; cbn; [now rewrite String.eqb_refl|]. destruct (k =? k') eqn:E; cbn; rewrite ?E, ?String.eqb_refl, ?IH; reflexivity.
  Qed.
  Lemma prepared mg : exists cfg2 rr, prepare_roi mg cfg = Some (cfg2, rr) /\ lookup "input" cfg2 = Some (JDict input) /\ lookup "pipeline" cfg2 = lookup "pipeline" cfg /\ zone_ready cfg2 rr /\
    forall z, q_zone q = Some z -> exists mg', rr = Some (with_margins z mg') /\ reaching mg'.
  Proof.
    unfold WholeModel.prepare_roi, zone_ready. destruct (q_zone q) as [z|].
    - destruct (Hzone z eq_refl) as (roi & Lr & Hz). rewrite Lr.
      destruct (assign2_spec "ROI" "margins" (margins_json (z4 mg)) cfg roi Lr) as (cfg1 & E1 & L1 & O1). rewrite E1. cbn [bind].
      rewrite (Hz _ _ L1). cbn [bind]. assert (I1 : lookup "input" cfg1 = Some (JDict input)) by (rewrite O1; [exact Linput | discriminate]).
      rewrite (disparity_here _ _ _ I1 Lrow), (disparity_here _ _ _ I1 Lcol), Erow, Ecol. cbn [bind].
      destruct roi_disparities as (dc & dr & -> & -> & P). cbn [bind].
      destruct (P (with_margins z (z4 mg))) as (mg' & -> & Pm & Rm); [unfold z4; cbn; lia|]. cbn [bind fst snd roi_mg].
      destruct (assign2_spec "ROI" "margins" (margins_json mg') cfg1 _ L1) as (cfg2 & E2 & L2 & O2). rewrite E2. cbn [bind].
      rewrite assign_twice in L2. do 2 eexists. split; [reflexivity|]. split; [rewrite O2; [exact I1 | discriminate]|].
      split; [rewrite O2 by discriminate; apply O1; discriminate|]. split; [|intros z0 [= <-]; exists mg'; split; [reflexivity | exact Rm]]. exists mg', (JDict (assign "margins" (margins_json mg') roi)). split; [reflexivity|]. split; [exact Pm|].
      split; [exact L2 | exact (Hz _ _ L2)].
    - rewrite (Hnozone eq_refl). do 2 eexists. split; [reflexivity|]. split; [exact Linput|]. split; [reflexivity|]. split; [split; [reflexivity | apply Hnozone; reflexivity] | intros; discriminate].
  Qed.

  (** The window that is read. *)
  Definition frame_ok (rr : option roi) (f : Z * nat * Z * nat) : Prop :=
    let '(row0, nrow, col0, ncol) := f in
    match rr with
    | None => row0 = 0 /\ nrow = rows /\ col0 = 0 /\ ncol = cols
    | Some r => let '(lft, up, rgt, down) := roi_mg r in
        (let '(a, b) := window_of (roi_r0 r) (roi_r1 r) up down (Z.of_nat rows) in row0 = a /\ a + Z.of_nat nrow = b) /\
        (let '(a, b) := window_of (roi_c0 r) (roi_c1 r) lft rgt (Z.of_nat cols) in col0 = a /\ a + Z.of_nat ncol = b)
    end.
  Hypothesis Hzone_inside : match q_zone q with Some z => 0 <= z_r0 z <= z_r1 z /\ z_r0 z < Z.of_nat rows /\ 0 <= z_c0 z <= z_c1 z /\ z_c0 z < Z.of_nat cols | None => True end.
  Notation two_lines := (two_lines q rows cols).
  Lemma frame_spec cfg2 rr : zone_ready cfg2 rr -> exists row0 nrow col0 ncol, frame_of (rows, cols) rr = Some (row0, nrow, col0, ncol) /\ frame_ok rr (row0, nrow, col0, ncol) /\
    (1 <= nrow)%nat /\ (1 <= ncol)%nat /\ 0 <= row0 /\ 0 <= col0 /\ row0 + Z.of_nat nrow <= Z.of_nat rows /\ col0 + Z.of_nat ncol <= Z.of_nat cols /\
    (two_lines -> (2 <= nrow)%nat /\ (2 <= ncol)%nat).
  Proof.
    unfold zone_ready, two_lines, frame_of, frame_ok. destruct (q_zone q) as [z|].
    - intros (mg & j & -> & P & _). cbn [fst snd with_margins roi_mg roi_r0 roi_r1 roi_c0 roi_c1]. destruct mg as [[[m0 m1] m2] m3]. cbn in P. unfold window_of.
      assert (A : Z.ltb (Z.max (z_r0 z - m1) 0) (Z.min (z_r1 z + m3 + 1) (Z.of_nat rows)) = true) by (apply Z.ltb_lt; lia).
      assert (B : Z.ltb (Z.max (z_c0 z - m0) 0) (Z.min (z_c1 z + m2 + 1) (Z.of_nat cols)) = true) by (apply Z.ltb_lt; lia). rewrite A, B. cbn [andb].
      do 4 eexists. split; [reflexivity|]. lia.
    - intros [-> _]. cbn [fst snd]. assert (A : Z.ltb 0 (Z.of_nat rows) = true) by (apply Z.ltb_lt; lia). assert (B : Z.ltb 0 (Z.of_nat cols) = true) by (apply Z.ltb_lt; lia). rewrite A, B.
      cbn [andb]. do 4 eexists. split; [reflexivity|]. lia.
  Qed.

  Variables (l rg : dict) (lpath rpath : string).
  Hypothesis Lleft : lookup "left" input = Some (JDict l).
  Hypothesis Limg : lookup "img" l = Some (JStr lpath).
  Hypothesis Lright : lookup "right" input = Some (JDict rg).
  Hypothesis Rimg : lookup "img" rg = Some (JStr rpath).
  Hypothesis Lsize : image_size lpath = (rows, cols).
  Hypothesis Rsize : image_size rpath = (rows, cols).
  Hypothesis Hdisp : check_disparities input = true.
  Hypothesis Hgrids : forall s, q_row_init q = JStr s -> two_lines.
  Definition grid_ready (g : disp_grids) (row0 : Z) (nrow : nat) (col0 : Z) (ncol : nat) (d : cfg_disp) : Prop :=
    a2_n0 (dg_min g) = nrow /\ a2_n1 (dg_min g) = ncol /\ a2_n0 (dg_max g) = nrow /\ a2_n1 (dg_max g) = ncol /\ tight_source (dg_min g) (dg_max g) (dg_source g) /\
    left_interval g d row0 col0.
  Lemma created cfg2 rr : lookup "input" cfg2 = Some (JDict input) -> has_estimation cfg2 = false -> zone_ready cfg2 rr ->
    exists row0 nrow col0 ncol lc lr rgrids,
      create_datasets rr cfg2 = Some (cfg2, (load l row0 nrow col0 ncol, mkGridDataset row0 nrow col0 ncol (lc, lr), transform_of l),
                                      (load rg row0 nrow col0 ncol, mkGridDataset row0 nrow col0 ncol rgrids, transform_of rg)) /\
      frame_ok rr (row0, nrow, col0, ncol) /\ (1 <= nrow)%nat /\ (1 <= ncol)%nat /\ grid_ready lc row0 nrow col0 ncol col /\ grid_ready lr row0 nrow col0 ncol row.
  Proof.
    intros Li He Hz. destruct (frame_spec cfg2 rr Hz) as (row0 & nrow & col0 & ncol & Ef & Hf & N1 & N2 & P1 & P2 & B1 & B2 & T).
    assert (Cv : file_covers col row0 nrow col0 ncol /\ file_covers row row0 nrow col0 ncol).
    { rewrite Drow, Dcol. unfold file_covers. cbn [cd_init]. destruct Hinside as [(a & b & Ha & Hb)|(a & b & Ea & Eb & G1 & G2)].
      - destruct Ha, Hb; cbn; auto.
      - destruct (T (Hgrids _ Ea)) as [T1 T2]. rewrite Ea, Eb. cbn. destruct G1 as (C1 & S1 & S2), G2 as (C2 & S3 & S4). rewrite S1, S2, S3, S4. auto 12. }
    destruct Cv as [Cc Cr].
    destruct (C15_grids row0 nrow col0 ncol col row N1 N2) as (lc & lr & rc & rr' & E1 & E2 & G & I1 & I2 & _); [rewrite Dcol; exact Ncol | rewrite Drow; exact Nrow | exact Cc | exact Cr|].
    exists row0, nrow, col0, ncol, lc, lr, (rc, rr'). split.
    { unfold WholeModel.create_datasets. rewrite He, Li, Hdisp. cbn [bind]. rewrite (disparity_here _ _ _ Li Lrow), (disparity_here _ _ _ Li Lcol), Erow, Ecol. cbn [bind get_path].
      rewrite Li, Lleft, Lright. unfold create_dataset. rewrite Limg, Rimg, Lsize, Rsize, Ef. cbn [bind]. rewrite E1, E2. reflexivity. }
    split; [exact Hf|]. split; [exact N1|]. split; [exact N2|]. unfold grid_ready.
    destruct (G lc ltac:(cbn; auto)) as (? & ? & ? & ? & ?). destruct (G lr ltac:(cbn; auto)) as (? & ? & ? & ? & ?). auto 15.
  Qed.

  (** The same with an estimation: the grids are those of the placeholder, which is written in the configuration. *)
  Lemma created_estimation cfg2 rr : lookup "input" cfg2 = Some (JDict input) -> has_estimation cfg2 = true -> zone_ready cfg2 rr ->
    exists cfg3 row0 nrow col0 ncol lgrids rgrids,
      create_datasets rr cfg2 = Some (cfg3, (load l row0 nrow col0 ncol, mkGridDataset row0 nrow col0 ncol lgrids, transform_of l),
                                      (load rg row0 nrow col0 ncol, mkGridDataset row0 nrow col0 ncol rgrids, transform_of rg)) /\
      frame_ok rr (row0, nrow, col0, ncol) /\ (1 <= nrow)%nat /\ (1 <= ncol)%nat /\ (forall k, k <> "input" -> lookup k cfg3 = lookup k cfg2) /\
      exists input3, lookup "input" cfg3 = Some (JDict input3).
  Proof.
    intros Li He Hz. destruct (frame_spec cfg2 rr Hz) as (row0 & nrow & col0 & ncol & Ef & Hf & N1 & N2 & _).
    destruct (C15_grids row0 nrow col0 ncol placeholder placeholder N1 N2) as (lc & lr & rc & rr' & E1 & E2 & _); [cbn; lia | cbn; lia | exact I | exact I|].
    destruct (assign2_spec "input" "col_disparity" (json_of_disp placeholder) cfg2 _ Li) as (cfg2a & Ea & La & Oa).
    destruct (assign2_spec "input" "row_disparity" (json_of_disp placeholder) cfg2a _ La) as (cfg3 & Eb & Lb & Ob).
    exists cfg3, row0, nrow, col0, ncol, (lc, lr), (rc, rr'). split.
    { unfold WholeModel.create_datasets. rewrite He, Ea. cbn [bind]. rewrite Eb. cbn [bind]. unfold disparity_at. cbn [get_path]. rewrite Lb. rewrite !lookup_assign.
      cbn [String.eqb Ascii.eqb Bool.eqb]. rewrite Lleft, Lright.
      change (cfg_disp_of open_raster [("init", JInt (-9999)); ("range", JInt 0)]) with placeholder. cbn [json_of_disp placeholder cd_init cd_range bind].
      change (cfg_disp_of open_raster [("init", JInt (-9999)); ("range", JInt 0)]) with placeholder. cbn [bind get_path].
      unfold create_dataset. rewrite Limg, Rimg, Lsize, Rsize, Ef. cbn [bind]. fold placeholder. rewrite E1, E2. reflexivity. }
    split; [exact Hf|]. split; [exact N1|]. split; [exact N2|]. split; [|eauto]. intros k Hk. rewrite Ob, Oa; auto.
  Qed.

  (** The matching cost. *)
  Variable measure_of : dict -> measure.
  Hypothesis Hload : forall s a n b k, (1 <= n)%nat -> (1 <= k)%nat -> a2_n0 (im_data (load s a n b k)) = n /\ a2_n1 (im_data (load s a n b k)) = k.
  Variables (c1 : dict) (subpix : Z) (jsub : json).
  Hypothesis Hsteps : mc_steps bool_ok (lookup "step" c1) = Some (q_row_step q, q_col_step q).
  Hypothesis Psteps : 1 <= q_row_step q /\ 1 <= q_col_step q.
  Hypothesis Lsub : lookup "subpix" c1 = Some jsub.
  Hypothesis Isub : int_value bool_ok jsub subpix.
  Hypothesis Psub : 1 <= subpix.
  Lemma input_ready cfg2 rr row0 nrow col0 ncol lc lr rgrids lim rim (tr : option affine) vols mps mg :
    zone_ready cfg2 rr -> frame_ok rr (row0, nrow, col0, ncol) -> (1 <= nrow)%nat -> (1 <= ncol)%nat -> grid_ready lc row0 nrow col0 ncol col -> grid_ready lr row0 nrow col0 ncol row ->
    mc_steps bool_ok (get_path ["pipeline"; "matching_cost"; "step"] (JDict cfg2)) = Some (q_row_step q, q_col_step q) ->
    a2_n0 (im_data rim) = nrow -> a2_n1 (im_data rim) = ncol ->
    exists m sc, matching_cost_input bool_ok measure_of c1 mg (mkData cfg2 lim rim (mkGridDataset row0 nrow col0 ncol (lc, lr)) rgrids tr vols mps) = Some m /\
      saving bool_ok cfg2 = Some sc /\ wf_mc m (rim : image px) /\ loaded m sc (Z.of_nat rows) (Z.of_nat cols) /\
      (mc_row0 m = row0 /\ mc_nrow m = nrow /\ mc_col0 m = col0 /\ mc_ncol m = ncol) /\
      mc_subpix m = Z.to_nat subpix /\ mc_step_row m = q_row_step q /\ mc_step_col m = q_col_step q /\ mc_measure m = measure_of c1 /\ mc_margins m = mg /\
      left_grids m = mkGrids2 (dg_min lc) (dg_max lc) (dg_min lr) (dg_max lr) /\
      (forall x, asked_row sc (Z.of_nat rows) (q_row_step q) x <-> wanted_row q (Z.of_nat rows) x) /\
      (forall y, asked_col sc (Z.of_nat cols) (q_col_step q) y <-> wanted_col q (Z.of_nat cols) y) /\
      (forall a b, constant (q_row_init q) a -> constant (q_col_init q) b -> constant_ranges m) /\
      (forall x y one dr, mc_row0 m <= x < mc_row0 m + Z.of_nat (mc_nrow m) -> mc_col0 m <= y < mc_col0 m + Z.of_nat (mc_ncol m) -> 0 < one ->
        (user_row_interval m one x y dr <-> exists v, middle open_raster (q_row_init q) x y v /\ (v - q_row_range q) * one <= dr <= (v + q_row_range q) * one) /\
        (user_col_interval m one x y dr <-> exists v, middle open_raster (q_col_init q) x y v /\ (v - q_col_range q) * one <= dr <= (v + q_col_range q) * one)).
  Proof.
    intros Hz Hf N1 N2 Gc Gr Gs R1 R2. destruct Psteps as [Ps1 Ps2].
    set (mroi := match q_zone q with None => None | Some z => match rr with Some r => Some (mkRoiCfg (z_c0 z) (z_r0 z) (roi_mg r)) | None => None end end).
    set (m := mkMC row0 nrow col0 ncol (dg_min lr) (dg_max lr) (dg_min lc) (dg_max lc) (dg_source lr) (dg_source lc) (Z.to_nat subpix) (q_row_step q) (q_col_step q) (measure_of c1) mg mroi).
    set (sc := mkSave rr (Some (q_row_step q, q_col_step q))). exists m, sc.
    split.
    { unfold matching_cost_input. rewrite Hsteps. cbn [bind]. unfold int_at. cbn [get_path]. rewrite Lsub. cbn [bind]. rewrite (int_value_as_int _ _ _ Isub). cbn [bind w_cfg w_left].
      unfold m, mroi. unfold zone_ready in Hz. destruct (q_zone q) as [z|].
      - destruct Hz as (mg' & j & -> & _ & Lj & Er). rewrite Lj, Er. reflexivity.
      - destruct Hz as [-> ->]. reflexivity. }
    split.
    { unfold saving. rewrite Gs. unfold sc. unfold zone_ready in Hz. destruct (q_zone q) as [z|].
      - destruct Hz as (mg' & j & -> & _ & Lj & Er). rewrite Lj, Er. reflexivity.
      - destruct Hz as [-> ->]. reflexivity. }
    destruct Gc as (C1 & C2 & C3 & C4 & Tc & Ic). destruct Gr as (E1 & E2 & E3 & E4 & Tr & Ir).
    split.
    { unfold wf_mc, m. cbn. split; [exact N1|]. split; [exact N2|]. split; [lia|]. split; [exact Ps1|]. split; [exact Ps2|]. split; [exact R1|]. split; [exact R2|].
      split; [intros g [-> | [-> | [-> | ->]]]; auto|]. split; [exact Tr | exact Tc]. }
    split.
    { unfold loaded, m, sc, mroi. cbn. split; [reflexivity|]. split; [exact Ps1|]. split; [exact Ps2|]. unfold zone_ready in Hz. unfold frame_ok in Hf. destruct (q_zone q) as [z|].
      - destruct Hz as (mg' & j & -> & Pm & _ & _). cbn in *. destruct mg' as [[[m0 m1] m2] m3]. cbn in *. destruct Hf as [F1 F2]. repeat split; try tauto; lia.
      - destruct Hz as [-> _]. destruct Hf as (-> & -> & -> & ->). repeat split. }
    split; [repeat split|]. repeat (split; [reflexivity|]). split; [|split; [|split]].
    - intros x. unfold asked_row, wanted_row, sc. cbn [sc_roi]. unfold zone_ready in Hz. destruct (q_zone q) as [z|]; [destruct Hz as (mg' & j & -> & _) | destruct Hz as [-> _]]; reflexivity.
    - intros x. unfold asked_col, wanted_col, sc. cbn [sc_roi]. unfold zone_ready in Hz. destruct (q_zone q) as [z|]; [destruct Hz as (mg' & j & -> & _) | destruct Hz as [-> _]]; reflexivity.
    - intros a b Ha Hb.
      assert (Xi : forall j v, constant j v -> init_of j = CInt v) by (intros j v H; inversion H; reflexivity).
      assert (Y : forall g dd v, cd_init dd = CInt v -> 0 <= cd_range dd -> a2_n0 (dg_min g) = nrow -> a2_n1 (dg_min g) = ncol -> a2_n0 (dg_max g) = nrow -> a2_n1 (dg_max g) = ncol ->
         tight_source (dg_min g) (dg_max g) (dg_source g) -> left_interval g dd row0 col0 ->
         forall r c, in2 (dg_min g) r c -> a2_get (dg_min g) r c = fst (dg_source g) /\ a2_get (dg_max g) r c = snd (dg_source g)).
      { intros g dd v Hi Hr S1 S2 S3 S4 (T1 & (ra & ca & T2 & T2') & (rb & cb & T3 & T3')) I.
        assert (Z : forall r c, in2 (dg_min g) r c -> a2_get (dg_min g) r c = v - cd_range dd /\ a2_get (dg_max g) r c = v + cd_range dd).
        { intros r c H. destruct (I r c H) as (w & Hw & Hi2). unfold InputSpec.asked in Hw. rewrite Hi in Hw. subst w. destruct (T1 r c H) as (_ & Hle & _).
          pose proof (proj1 (Hi2 (a2_get (dg_min g) r c)) ltac:(lia)). pose proof (proj1 (Hi2 (a2_get (dg_max g) r c)) ltac:(lia)).
          pose proof (proj2 (Hi2 (v - cd_range dd)) ltac:(lia)). pose proof (proj2 (Hi2 (v + cd_range dd)) ltac:(lia)). lia. }
        intros r c H. destruct (Z r c H) as [-> ->]. destruct (Z _ _ T2) as [Q1 _]. assert (in2 (dg_min g) rb cb) as T3b by (unfold in2 in *; rewrite S1, S2; rewrite S3, S4 in T3; exact T3).
        destruct (Z _ _ T3b) as [_ Q2]. lia. }
      unfold constant_ranges, m. cbn. split.
      + apply (Y lr row a); auto; rewrite Drow; cbn; auto.
      + apply (Y lc col b); auto; rewrite Dcol; cbn; auto.
    - intros x y one dr Hx Hy Hone. unfold m in Hx, Hy. cbn in Hx, Hy. unfold user_row_interval, user_col_interval, m. cbn.
      assert (Y : forall g dd init rng, dd = mkCfgDisp (init_of init) rng -> a2_n0 (dg_min g) = nrow -> a2_n1 (dg_min g) = ncol ->
         tight_source (dg_min g) (dg_max g) (dg_source g) -> left_interval g dd row0 col0 ->
         a2_get (dg_min g) (Z.to_nat (x - row0)) (Z.to_nat (y - col0)) * one <= dr <= a2_get (dg_max g) (Z.to_nat (x - row0)) (Z.to_nat (y - col0)) * one <->
         exists v, middle open_raster init x y v /\ (v - rng) * one <= dr <= (v + rng) * one).
      { intros g dd init rng Hdd S1 S2 (T1 & _) I. assert (H : in2 (dg_min g) (Z.to_nat (x - row0)) (Z.to_nat (y - col0))) by (unfold in2; rewrite S1, S2; lia).
        destruct (I _ _ H) as (v & Hv & Hi). replace (row0 + Z.of_nat (Z.to_nat (x - row0))) with x in Hv by lia. replace (col0 + Z.of_nat (Z.to_nat (y - col0))) with y in Hv by lia.
        subst dd. apply asked_middle in Hv. cbn [cd_range] in Hi. destruct (T1 _ _ H) as (_ & Hle & _).
        pose proof (proj1 (Hi _) (conj (Z.le_refl _) Hle)). pose proof (proj1 (Hi _) (conj Hle (Z.le_refl _))). split.
        - intros Hd. exists v. split; [exact Hv|]. nia.
        - intros (v' & Hv' & Hd). rewrite (middle_unique _ _ _ _ _ _ Hv' Hv) in Hd.
          pose proof (proj2 (Hi (v - rng)) ltac:(lia)). pose proof (proj2 (Hi (v + rng)) ltac:(lia)). nia. }
      split; [apply (Y lr row) | apply (Y lc col)]; auto.
  Qed.
End Datasets.

(** * The estimation *)
Lemma roi_of_lookup bool_ok cfg cfg' : lookup "ROI" cfg' = lookup "ROI" cfg -> roi_of bool_ok cfg' = roi_of bool_ok cfg.
Proof. intros E. unfold roi_of, int_at. cbn [get_path]. now rewrite E. Qed.
Lemma zone_ready_lookup bool_ok q cfg cfg' rr : lookup "ROI" cfg' = lookup "ROI" cfg -> zone_ready bool_ok q cfg rr -> zone_ready bool_ok q cfg' rr.
Proof. intros E. unfold zone_ready. now rewrite E, (roi_of_lookup bool_ok _ _ E). Qed.
Lemma assign3_spec k1 k2 k3 v cfg d x : lookup k1 cfg = Some (JDict d) -> lookup k2 d = Some (JDict x) -> exists cfg' d', assign3 k1 k2 k3 v cfg = Some cfg' /\
  lookup k1 cfg' = Some (JDict d') /\ lookup k2 d' = Some (JDict (assign k3 v x)) /\ (forall k, k <> k1 -> lookup k cfg' = lookup k cfg) /\ (forall k, k <> k2 -> lookup k d' = lookup k d).
Proof.
  intros L1 L2. destruct (assign2_spec k2 k3 v d x L2) as (d' & E & L & O). unfold assign3. rewrite L1, E. do 2 eexists. split; [reflexivity|].
  split; [rewrite lookup_assign, String.eqb_refl; reflexivity|]. split; [exact L|]. split; [|exact O].
  intros k Hk. rewrite lookup_assign. apply String.eqb_neq in Hk. now rewrite Hk.
Qed.
Lemma estimated bool_ok cfg pl x y a b i row0 nrow col0 ncol g right shifts er ph :
  lookup "pipeline" cfg = Some (JDict pl) -> lookup "estimation" pl = Some (JDict x) -> estimation_check_conf bool_ok x = Some y ->
  lookup "range_row" y = Some (JInt a) -> lookup "range_col" y = Some (JInt b) -> 0 <= a -> 0 <= b -> lookup "input" cfg = Some (JDict i) -> (1 <= nrow)%nat -> (1 <= ncol)%nat ->
  exists cfg' lc lr, estimation_run bool_ok cfg "estimation" (mkGridDataset row0 nrow col0 ncol g) right shifts er ph = Some (mkGridDataset row0 nrow col0 ncol (lc, lr), right, cfg') /\
    (forall k, k <> "input" -> k <> "pipeline" -> lookup k cfg' = lookup k cfg) /\
    (exists p', lookup "pipeline" cfg' = Some (JDict p') /\ forall k, k <> "estimation" -> lookup k p' = lookup k pl) /\
    grid_ready lc row0 nrow col0 ncol (mkCfgDisp (CInt (py_round (- snd shifts))) b) /\ grid_ready lr row0 nrow col0 ncol (mkCfgDisp (CInt (py_round (- fst shifts))) a).
Proof.
  intros Lp Le Hy Ra Rb Pa Pb Li N1 N2. unfold estimation_run. rewrite Lp, Le, Hy. cbn [bind]. unfold int_field. rewrite Ra, Rb. cbn [bind compute_estimation gd_row0 gd_nrow gd_col0 gd_ncol].
  destruct (C15_grids row0 nrow col0 ncol (mkCfgDisp (CInt (py_round (- snd shifts))) b) (mkCfgDisp (CInt (py_round (- fst shifts))) a) N1 N2) as (lc & lr & rc & rr & E1 & _ & G & I1 & I2 & _);
    [exact Pb | exact Pa | exact I | exact I|].
  rewrite E1. cbn [bind].
  set (cfg1 := assign "pipeline" (JDict (assign "estimation" (JDict y) pl)) cfg).
  assert (L1 : lookup "input" cfg1 = Some (JDict i)) by (unfold cfg1; rewrite lookup_assign; exact Li).
  assert (P1 : lookup "pipeline" cfg1 = Some (JDict (assign "estimation" (JDict y) pl))) by (unfold cfg1; rewrite lookup_assign; reflexivity).
  assert (O1 : forall k, k <> "pipeline" -> lookup k cfg1 = lookup k cfg) by (intros k Hk; unfold cfg1; rewrite lookup_assign; apply String.eqb_neq in Hk; now rewrite Hk).
  unfold update_cfg_with_estimation.
  destruct (assign2_spec "input" "col_disparity" (json_of_disp (mkCfgDisp (CInt (py_round (- snd shifts))) b)) cfg1 _ L1) as (cfg2 & -> & L2 & O2). cbn [bind].
  destruct (assign2_spec "input" "row_disparity" (json_of_disp (mkCfgDisp (CInt (py_round (- fst shifts))) a)) cfg2 _ L2) as (cfg3 & -> & L3 & O3). cbn [bind].
  assert (P3 : lookup "pipeline" cfg3 = Some (JDict (assign "estimation" (JDict y) pl))) by (rewrite O3, O2 by discriminate; exact P1).
  assert (E3 : lookup "estimation" (assign "estimation" (JDict y) pl) = Some (JDict y)) by (rewrite lookup_assign; reflexivity).
  destruct (assign3_spec "pipeline" "estimation" "estimated_shifts" (JList [JFloat (fst (- fst shifts, - snd shifts)%Q); JFloat (snd (- fst shifts, - snd shifts)%Q)]) cfg3 _ _ P3 E3)
    as (cfg4 & p4 & -> & P4 & E4 & O4 & Q4). cbn [bind assign_all].
  destruct (assign3_spec "pipeline" "estimation" "error" er cfg4 _ _ P4 E4) as (cfg5 & p5 & -> & P5 & E5 & O5 & Q5).
  destruct (assign3_spec "pipeline" "estimation" "phase_diff" ph cfg5 _ _ P5 E5) as (cfg6 & p6 & -> & P6 & E6 & O6 & Q6).
  cbn [bind]. exists cfg6, lc, lr. split; [reflexivity|]. split; [intros k K1 K2; rewrite O6, O5, O4, O3, O2, O1; auto|]. split.
  { exists p6. split; [exact P6|]. intros k Hk. rewrite Q6, Q5, Q4 by exact Hk. rewrite lookup_assign. apply String.eqb_neq in Hk. now rewrite Hk. }
  unfold grid_ready. destruct (G lc ltac:(cbn; auto)) as (? & ? & ? & ? & ?). destruct (G lr ltac:(cbn; auto)) as (? & ? & ? & ? & ?). auto 15.
Qed.
