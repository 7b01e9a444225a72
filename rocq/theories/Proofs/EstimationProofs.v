(** Proofs about the estimation. *)
From Coq Require Import List String Bool ZArith QArith Qround Lia Lqa.
From Verif Require Import Base.Arr Base.Json Model.CommonModel Model.InputModel Model.ConfigModel Model.EstimationModel
  Spec.ConfigSpec Spec.EstimationSpec Proofs.ConfigProofs Proofs.ConfigStepProofs.
Import ListNotations.
Open Scope Z_scope.
Open Scope string_scope.
Open Scope list_scope.

Lemma py_round_nearest q : nearest q (py_round q).
Proof.
  unfold nearest, py_round. pose proof (Qfloor_le q) as H1. pose proof (Qlt_floor q) as H2.
  rewrite inject_Z_plus in H2. change (inject_Z 1) with 1%Q in H2.
  destruct (Qcompare (q - inject_Z (Qfloor q)) (1 # 2)) eqn:E.
  - apply Qeq_alt in E. destruct (Z.even (Qfloor q)); rewrite ?inject_Z_plus; change (inject_Z 1) with 1%Q; lra.
  - apply Qlt_alt in E. lra.
  - apply Qgt_alt in E. rewrite inject_Z_plus. change (inject_Z 1) with 1%Q. lra.
Qed.
Lemma inject_half_parity a b : (inject_Z a == inject_Z b)%Q -> a = b.
Proof. unfold Qeq, inject_Z. cbn. lia. Qed.
Lemma py_round_even q : half_to_even q (py_round q).
Proof.
  unfold half_to_even, py_round. pose proof (Qfloor_le q) as H1. pose proof (Qlt_floor q) as H2.
  rewrite inject_Z_plus in H2. change (inject_Z 1) with 1%Q in H2.
  destruct (Qcompare (q - inject_Z (Qfloor q)) (1 # 2)) eqn:E.
  - apply Qeq_alt in E. intros _. destruct (Z.even (Qfloor q)) eqn:Ev; [now apply Z.even_spec|].
    apply Z.even_spec. now rewrite Z.even_add, Ev.
  - apply Qlt_alt in E. intros [H|H]; exfalso; lra.
  - apply Qgt_alt in E. rewrite inject_Z_plus. change (inject_Z 1) with 1%Q. intros [H|H]; exfalso; lra.
Qed.

Lemma bind_some {A B} (x : option A) (f : A -> option B) y : bind x f = Some y -> exists a, x = Some a /\ f a = Some y.
Proof. destruct x; cbn; [eauto | discriminate]. Qed.
Lemma get_path_assign_same k v (d : dict) p : get_path (k :: p) (JDict (assign k v d)) = get_path p v.
Proof. cbn. now rewrite lookup_assign, String.eqb_refl. Qed.
Lemma lookup_assign_same {A} k (v : A) d : lookup k (assign k v d) = Some v.
Proof. now rewrite lookup_assign, String.eqb_refl. Qed.
Lemma lookup_assign_other {A} k k' (v : A) d : k <> k' -> lookup k (assign k' v d) = lookup k d.
Proof. intros H. rewrite lookup_assign. apply String.eqb_neq in H. now rewrite H. Qed.

(** What a successful estimation run is made of. *)
Lemma estimation_run_inv b cfg left right shifts error phase left' right' cfg' :
  estimation_run b cfg "estimation" left right shifts error phase = Some (left', right', cfg') ->
  exists pipeline step_cfg checked rr rc input,
    lookup "pipeline" cfg = Some (JDict pipeline) /\ lookup "estimation" pipeline = Some (JDict step_cfg) /\
    estimation_check_conf b step_cfg = Some checked /\ lookup "range_row" checked = Some (JInt rr) /\ lookup "range_col" checked = Some (JInt rc) /\
    lookup "input" cfg = Some (JDict input) /\ right' = right /\
    add_disparity_grid (gd_row0 left) (gd_nrow left) (gd_col0 left) (gd_ncol left)
      (mkCfgDisp (CInt (py_round (- snd shifts))) rc) (mkCfgDisp (CInt (py_round (- fst shifts))) rr) false = Some (gd_grids left') /\
    gd_row0 left' = gd_row0 left /\ gd_nrow left' = gd_nrow left /\ gd_col0 left' = gd_col0 left /\ gd_ncol left' = gd_ncol left /\
    (forall k, k <> "input" -> k <> "pipeline" -> lookup k cfg' = lookup k cfg) /\
    lookup "input" cfg' = Some (JDict (assign "row_disparity" (JDict [("init", JInt (py_round (- fst shifts))); ("range", JInt rr)])
                               (assign "col_disparity" (JDict [("init", JInt (py_round (- snd shifts))); ("range", JInt rc)]) input))) /\
    exists pipeline', lookup "pipeline" cfg' = Some (JDict pipeline') /\
      (forall k, k <> "estimation" -> lookup k pipeline' = lookup k pipeline) /\
      lookup "estimation" pipeline' = Some (JDict (assign "phase_diff" phase (assign "error" error
         (assign "estimated_shifts" (JList [JFloat (- fst shifts); JFloat (- snd shifts)]) checked)))).
Proof.
  unfold estimation_run. destruct (lookup "pipeline" cfg) as [[| | | | | | | |pipeline]|] eqn:Ep; try discriminate.
  destruct (lookup "estimation" pipeline) as [[| | | | | | | |step_cfg]|] eqn:Es; try discriminate.
  intros H. apply bind_some in H. destruct H as (checked & Hc & H).
  apply bind_some in H. destruct H as (rr & Hr & H). apply bind_some in H. destruct H as (rc & Hrc & H).
  cbn [compute_estimation] in H. unfold compute_estimation in H. apply bind_some in H. destruct H as (grids & Hg & H).
  apply bind_some in H. destruct H as (cfg2 & Hu & H). injection H as <- <- <-.
  unfold int_field in Hr, Hrc.
  destruct (lookup "range_row" checked) as [[| |z| | | | | |]|] eqn:Lr; try discriminate. injection Hr as ->.
  destruct (lookup "range_col" checked) as [[| |z| | | | | |]|] eqn:Lc; try discriminate. injection Hrc as ->.
  unfold update_cfg_with_estimation in Hu.
  apply bind_some in Hu. destruct Hu as (c1 & H1 & Hu). apply bind_some in Hu. destruct Hu as (c2 & H2 & Hu).
  apply bind_some in Hu. destruct Hu as (c3 & H3 & Hu).
  unfold assign2 in H1. rewrite lookup_assign_other in H1 by discriminate.
  destruct (lookup "input" cfg) as [[| | | | | | | |input]|] eqn:Ei; try discriminate. injection H1 as <-.
  unfold assign2 in H2. rewrite lookup_assign_same in H2. injection H2 as <-.
  unfold assign3 in H3. rewrite !lookup_assign_other in H3 by discriminate. rewrite lookup_assign_same in H3.
  unfold assign2 in H3. rewrite lookup_assign_same in H3. injection H3 as <-.
  cbn [assign_all] in Hu. unfold assign3 at 1 in Hu. rewrite lookup_assign_same in Hu. unfold assign2 at 1 in Hu. rewrite lookup_assign_same in Hu.
  unfold assign3 at 1 in Hu. rewrite lookup_assign_same in Hu. unfold assign2 at 1 in Hu. rewrite lookup_assign_same in Hu.
  injection Hu as <-.
  exists pipeline, step_cfg, checked, rr, rc, input. do 6 (split; [assumption || reflexivity|]). split; [reflexivity|]. split; [exact Hg|].
  do 4 (split; [reflexivity|]). split.
  { intros k Hk1 Hk2. now rewrite !lookup_assign_other by assumption. }
  split.
  { rewrite !(lookup_assign_other "input" "pipeline") by discriminate. now rewrite lookup_assign_same. }
  eexists. split; [apply lookup_assign_same|]. split; [|apply lookup_assign_same].
  intros k Hk. now rewrite !lookup_assign_other by assumption.
Qed.

(** A range of the completed configuration. *)
Lemma checked_range b step_cfg checked key n : NoDup (keys step_cfg) -> In key ["range_row"; "range_col"] ->
  estimation_check_conf b step_cfg = Some checked -> lookup key checked = Some (JInt n) -> range_of key step_cfg n.
Proof.
  intros Hn Hk H L. destruct (estimation_result _ _ _ H) as [C _]. rewrite C in L. destruct (lookup key step_cfg) as [v|] eqn:E.
  - injection L as ->. left. now apply lookup_In.
  - right. split.
    + intros v Hin. apply In_lookup in Hin; [congruence | auto].
    + destruct Hk as [<-|[<-|[]]]; cbn in L; congruence.
Qed.
Lemma checked_range_positive b step_cfg checked key n : NoDup (keys step_cfg) -> In key ["range_row"; "range_col"] ->
  estimation_check_conf b step_cfg = Some checked -> lookup key checked = Some (JInt n) -> 3 <= n.
Proof.
  intros Hn Hk H L.
  assert (D : described (estimation_fields b) step_cfg) by (apply estimation_accepts; congruence).
  destruct (checked_range _ _ _ _ _ Hn Hk H L) as [R|[_ ->]]; [|lia].
  destruct (proj1 D key (JInt n) (In_lookup _ _ _ Hn R)) as (m & P & Hin & HP).
  assert (X : integer b (fun n => 3 <= n /\ Z.Odd n) (JInt n)).
  { cbn in Hin. destruct Hk as [<-|[<-|[]]]; destruct Hin as [E|[E|[E|[E|[]]]]]; try discriminate; injection E as <- <-; exact HP. }
  destruct X as (n' & V & X & _). inversion V; subst. exact X.
Qed.

(** The completed configuration has other keys: it is refused. *)
Lemma estimation_refuses_shifts b d : NoDup (keys d) -> lookup "estimated_shifts" d <> None -> estimation_check_conf b d = None.
Proof.
  intros Hn H. destruct (estimation_check_conf b d) eqn:E; [|reflexivity].
  assert (D : described (estimation_fields b) d) by (apply estimation_accepts; congruence).
  destruct (lookup "estimated_shifts" d) as [v|] eqn:Ev; [|congruence].
  destruct (proj1 D _ _ Ev) as (m & P & Hin & _). cbn in Hin. destruct Hin as [X|[X|[X|[X|[]]]]]; discriminate.
Qed.
