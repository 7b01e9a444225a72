(** C52, C53: exactly which pixels are refined by the dichotomy, and when the score map is not degraded. *)
From Coq Require Import ZArith List Bool Lia Arith Znumtheory.
From Verif Require Import Base.Ext Base.PyList Base.Arr Model.CommonModel Model.DisparityModel Model.DichotomyModel
  Spec.WtaSpec Spec.DichotomySpec Proofs.ChunkProofs Proofs.WtaProofs Proofs.WtaTheorems Proofs.DichotomyProofs Proofs.DichotomyTheorems Proofs.RefineExactProofs Props.WtaProps Props.DichotomyProps.
Import ListNotations.
Open Scope Z_scope.

(** A pixel that has disparities and a cost loses its score exactly when one of its disparities is the value of invalid_disparity; its disparities are then unchanged.
    The other pixels get a score that is at least as good. *)
Theorem C52_exact one store flt iterations cv invalid col_map row_map g mc mr sc r c row col i j x :
  rounding store -> increasing (cv_disp_col cv) -> increasing (cv_disp_row cv) -> same_shape cv g ->
  refinement_method one store flt iterations cv invalid col_map row_map g = Some (mc, mr, sc) -> (r < cv_nrow cv)%nat -> (c < cv_ncol cv)%nat ->
  nth2 row_map r c = Some (Fin row) -> nth2 col_map r c = Some (Fin col) -> DichotomySpec.cost_for cv r c row col i j x -> x <> NaN -> x <> worst_cost (cv_measure cv) -> store x = x ->
  (nth2 sc r c = Some NaN <-> Fin row = invalid \/ Fin col = invalid) /\
  (nth2 sc r c = Some NaN -> nth2 mr r c = Some (Fin row) /\ nth2 mc r c = Some (Fin col)) /\
  (nth2 sc r c <> Some NaN -> exists y, nth2 sc r c = Some y /\ at_least_as_good (cv_measure cv) y x).
Proof.
  intros Rs IC IR Sh E Hr Hc Nr Nc C X1 X2 X3.
  assert (D : (Fin row = invalid \/ Fin col = invalid) \/ Fin row <> invalid /\ Fin col <> invalid).
  { assert (Dx : forall v, Fin v = invalid \/ Fin v <> invalid) by (intros v; destruct invalid as [| |w|]; try (right; discriminate); destruct (Z.eq_dec v w) as [->|N]; [now left | right; congruence]).
    destruct (Dx row), (Dx col); tauto. }
  destruct D as [D|[D1 D2]].
  - assert (I : nth2 row_map r c = Some invalid \/ nth2 col_map r c = Some invalid) by (destruct D as [<-|<-]; auto).
    pose proof (kept_nan _ _ _ _ _ _ _ _ _ _ _ _ _ _ E Hr Hc I) as K. destruct (C27_left_alone _ _ _ _ _ _ _ _ _ _ _ _ r c Sh E Hr Hc) as [K1 K2]; [tauto|].
    split; [tauto|]. split; [intros _; split; congruence | congruence].
  - destruct (C25_score one store flt iterations cv invalid col_map row_map g mc mr sc r c row col i j x Rs IC IR E Hr Hc) as (row' & col' & y & A & B & Sy & Good & _); auto.
    { repeat split; auto. }
    assert (Ny : y <> NaN) by (intros ->; destruct (cv_measure cv), x; cbn in Good; discriminate).
    rewrite Sy. split; [split; [congruence | tauto]|]. split; [congruence|]. eauto.
Qed.

(** After the winner takes all, the score of a pixel whose best pair of disparities is unique is never degraded. *)
Theorem C53_unique_optimum one store flt iterations chunk cv invalid col_map row_map score g mc mr sc r c dc0 dr0 best row col :
  rounding store -> ordinary_costs store cv -> wf_cv cv -> increasing (cv_disp_col cv) -> increasing (cv_disp_row cv) -> same_shape cv g ->
  compute_disp_maps chunk invalid cv = Some (col_map, row_map, score) ->
  refinement_method one store flt iterations cv invalid col_map row_map g = Some (mc, mr, sc) -> (r < cv_nrow cv)%nat -> (c < cv_ncol cv)%nat ->
  computed cv r c dc0 dr0 best -> (forall dc dr x, computed cv r c dc dr x -> at_least_as_good (cv_measure cv) x best -> dc = dc0 /\ dr = dr0) ->
  matched invalid col_map row_map r c row col ->
  exists x y, nth2 score r c = Some x /\ nth2 sc r c = Some y /\ at_least_as_good (cv_measure cv) y x.
Proof.
  intros Rs Or Wf IC IR Sh Ed E Hr Hc Cb Cu M.
  destruct (C03_pair_has_score_partial chunk invalid cv Wf) as (mc0 & mr0 & s0 & Ed0 & P). rewrite Ed in Ed0. injection Ed0 as <- <- <-.
  destruct (P r c Hr Hc) as (i & j & di & dj & s & N1 & N2 & N3 & N4 & N5 & N6); [|eauto|].
  { intros dc dr (U1 & U2 & Ca & Nn). destruct (Or _ _ _ _ _ Ca) as [W|[W _]]; [contradiction|]. apply W. reflexivity. }
  destruct M as (M1 & M2 & M3 & M4). rewrite N4 in M1. injection M1 as <-. rewrite N2 in M2. injection M2 as <-.
  assert (Best : s <> NaN).
  { intros ->.
    destruct (wta_disparities_reach_best chunk invalid cv Wf) as (a & b & d & Ed2 & Q2). rewrite Ed in Ed2. injection Ed2 as <- <- <-.
    destruct (Q2 r c Hr Hc) as (s' & i' & j' & di' & dj' & Hs & _ & _ & _ & _ & (dr & H5) & _).
    - intros dc dr (U1 & U2 & Ca & Nn). destruct (Or _ _ _ _ _ Ca) as [W|[W _]]; [contradiction|]. apply W. reflexivity.
    - eauto.
    - rewrite N5 in Hs. injection Hs as <-. destruct H5 as (_ & _ & _ & Nn). now apply Nn. }
  destruct (Or _ _ _ _ _ N6) as [W|[W1 W2]]; [contradiction|].
  destruct (C25_score one store flt iterations cv invalid col_map row_map g mc mr sc r c dj di i j s Rs IC IR E Hr Hc) as (row' & col' & y & _ & _ & Sy & Good & _); auto.
  { repeat split; auto. } { repeat split; auto. }
  exists s, y. auto.
Qed.

(** The volume of DichotomyProps: the best pair of the first pixel is unique, its disparities are found by the winner takes all. With an invalid_disparity of 0 its score is lost. *)
Lemma ex_increasing : increasing (cv_disp_col ex_dcv) /\ increasing (cv_disp_row ex_dcv).
Proof. destruct ex_ready as (_ & _ & _ & _ & S1 & S2 & _). split; eapply spaced_increasing; eassumption. Qed.
Example C52_example : exists mc mr sc, refinement_method 512 (fun x => x) ex_filter 9 ex_dcv (Fin 0) [[Fin 0; Fin 0; Fin 512]] [[Fin 0; Fin 512; Fin 0]] ex_dgrids = Some (mc, mr, sc) /\
  same_shape ex_dcv ex_dgrids /\ DichotomySpec.cost_for ex_dcv 0 0 0 0 2 2 (Fin 0) /\ nth2 sc 0 0 = Some NaN.
Proof.
  do 3 eexists. split; [vm_compute; reflexivity|]. split; [apply ex_ready|]. split; [repeat split | reflexivity].
Qed.
Example C53_example : exists col_map row_map score mc mr sc, compute_disp_maps 100 ex_invalid ex_dcv = Some (col_map, row_map, score) /\
  refinement_method 512 (fun x => x) ex_filter 9 ex_dcv ex_invalid col_map row_map ex_dgrids = Some (mc, mr, sc) /\ ordinary_costs (fun x => x) ex_dcv /\ wf_cv ex_dcv /\
  computed ex_dcv 0 0 2 2 (Fin 0) /\ (forall dc dr x, computed ex_dcv 0 0 dc dr x -> at_least_as_good (cv_measure ex_dcv) x (Fin 0) -> dc = 2%nat /\ dr = 2%nat) /\
  matched ex_invalid col_map row_map 0 0 0 0 /\ nth2 score 0 0 = Some (Fin 0) /\ nth2 sc 0 0 = Some (Fin (-783353)).
Proof.
  do 6 eexists. split; [vm_compute; reflexivity|]. split; [vm_compute; reflexivity|]. split; [exact ex_ordinary|]. split; [apply ex_ready|].
  assert (U : forall dc, user_col ex_dcv dc <-> (1 <= dc < 4)%nat) by (intros dc; unfold user_col; cbn; lia).
  assert (V : forall dr, user_row ex_dcv dr <-> (1 <= dr < 4)%nat) by (intros dr; unfold user_row; cbn; lia).
  split; [split; [apply U; lia|]; split; [apply V; lia|]; split; [reflexivity | discriminate]|]. split.
  { intros dc dr x (A & B & C & _) G. assert (A' := proj1 (U dc) A). assert (B' := proj1 (V dr) B). clear A B. cbn [cv_measure ex_dcv at_least_as_good] in G.
    assert (Dc : dc = 1%nat \/ dc = 2%nat \/ dc = 3%nat) by lia. assert (Dr : dr = 1%nat \/ dr = 2%nat \/ dr = 3%nat) by lia. clear A' B'.
    destruct Dc as [-> |[-> | ->]], Dr as [-> |[-> | ->]]; vm_compute in C; injection C as <-; vm_compute in G; auto; discriminate. }
  split; [repeat split; discriminate | split; reflexivity].
Qed.

Print Assumptions C52_exact.
Print Assumptions C53_unique_optimum.
