(** C103: the classes registered under a name, and the objects made from a configuration. *)
From Coq Require Import List String Bool ZArith Lia Permutation.
From Verif Require Import Base.Json Base.Dict Model.ConfigModel Model.RegistryModel Spec.RegistrySpec Proofs.CheckConfProofs Proofs.RegistryProofs.
Import ListNotations.
Open Scope string_scope.
Open Scope list_scope.

(** A class is found under a name exactly when its registration is the last one with this name; no other registration matters. *)
Theorem C103_registered (cls : Type) (registrations : list (string * cls)) name c :
  registered name (imported registrations []) = Some c <-> last_registered name c registrations.
Proof. apply registered_last. Qed.

(** A name is unknown exactly when it was never registered: nothing is ever removed. *)
Theorem C103_unknown (cls : Type) (registrations : list (string * cls)) name :
  registered name (imported registrations []) = None <-> forall c, ~ In (name, c) registrations.
Proof. apply registered_none. Qed.

(** Whatever the order of the imports, the abstract classes give an object exactly for the methods of the user guide and those of the plugins; the methods
    of the user guide keep their class. *)
Theorem C103_refinement_class plugins all cfg c : with_plugins refinement_modules plugins all -> not_a_plugin "refinement_method" plugins cfg ->
  (new_instance "refinement_method" (imported all []) None (Some cfg) = Some c <->
   exists n, lookup "refinement_method" cfg = Some (JStr n) /\ refinement_named n c).
Proof.
  intros W N. rewrite (new_own _ _ _ _ _ refinement_distinct W N), new_named. split; intros (n & L & F); exists n; split; try exact L.
  - apply refinement_names. apply registered_last in F. destruct F as (b & a & -> & _). apply in_or_app. right. left. reflexivity.
  - apply (registered_plugins refinement_modules [] refinement_modules n c refinement_distinct); [ | apply refinement_names; exact F ].
    split; [ rewrite app_nil_r; apply Permutation_refl | intros x y z _ [] ].
Qed.
Theorem C103_filter_class plugins all cfg c : with_plugins filter_modules plugins all -> not_a_plugin "method" plugins cfg ->
  (new_instance "method" (imported all []) None (Some cfg) = Some c <-> exists n, lookup "method" cfg = Some (JStr n) /\ filter_named n c).
Proof.
  intros W N. rewrite (new_own _ _ _ _ _ filter_distinct W N), new_named. split; intros (n & L & F); exists n; split; try exact L.
  - apply filter_names. apply registered_last in F. destruct F as (b & a & -> & _). apply in_or_app. right. left. reflexivity.
  - apply (registered_plugins filter_modules [] filter_modules n c filter_distinct); [ | apply filter_names; exact F ].
    split; [ rewrite app_nil_r; apply Permutation_refl | intros x y z _ [] ].
Qed.
Theorem C103_estimation_class plugins all cfg c : with_plugins estimation_modules plugins all -> not_a_plugin "estimation_method" plugins cfg ->
  (new_instance "estimation_method" (imported all []) None (Some cfg) = Some c <->
   exists n, lookup "estimation_method" cfg = Some (JStr n) /\ estimation_named n c).
Proof.
  intros W N. rewrite (new_own _ _ _ _ _ estimation_distinct W N), new_named. split; intros (n & L & F); exists n; split; try exact L.
  - apply estimation_names. apply registered_last in F. destruct F as (b & a & -> & _). apply in_or_app. right. left. reflexivity.
  - apply (registered_plugins estimation_modules [] estimation_modules n c estimation_distinct); [ | apply estimation_names; exact F ].
    split; [ rewrite app_nil_r; apply Permutation_refl | intros x y z _ [] ].
Qed.

(** The object made from a section that names no plugin holds the configuration computed by the model of the checks (refinement_init, filter_check_conf,
    estimation_check_conf), the one the other theorems speak about, and there is an error for the same sections. So plugins that take names of their own
    change no run that does not name them. *)
Theorem C103_refinement bool_ok refinement_plugin filter_plugin plugins all filter_plugins all_filters step window_size cfg :
  with_plugins refinement_modules plugins all -> with_plugins filter_modules filter_plugins all_filters ->
  NoDup (keys cfg) -> not_a_plugin "refinement_method" plugins cfg -> filter_not_a_plugin filter_plugins cfg ->
  option_map snd (create_refinement bool_ok refinement_plugin filter_plugin (imported all []) (imported all_filters []) None step window_size cfg) =
  refinement_init bool_ok step window_size cfg.
Proof.
  intros W WF ND N NF. unfold create_refinement. rewrite (new_own _ _ _ _ _ refinement_distinct W N). unfold refinement_init. cbn [new_instance].
  destruct (lookup "refinement_method" cfg) as [[] |]; try reflexivity. rewrite refinements_found.
  rewrite (String.eqb_sym s "dichotomy"), (String.eqb_sym s "optical_flow"), (String.eqb_sym s "interpolation").
  destruct ("interpolation" =? s) eqn:E1.
  { apply String.eqb_eq in E1. subst s. cbn [refinement_constructor String.eqb Ascii.eqb Bool.eqb]. destruct (interpolation_init cfg); reflexivity. }
  destruct ("optical_flow" =? s) eqn:E2.
  { apply String.eqb_eq in E2. subst s. cbn [refinement_constructor String.eqb Ascii.eqb Bool.eqb]. destruct (optical_flow_init _ _ _ _); reflexivity. }
  destruct ("dichotomy" =? s) eqn:E3; [ | reflexivity ]. cbn [refinement_constructor].
  rewrite (dichotomy_own bool_ok filter_plugin filter_plugins all_filters cfg WF ND NF). destruct (dichotomy_init _ _); reflexivity.
Qed.
Theorem C103_filter bool_ok filter_plugin plugins all cfg : with_plugins filter_modules plugins all -> not_a_plugin "method" plugins cfg ->
  option_map snd (create_filter bool_ok filter_plugin (imported all []) None cfg) = filter_check_conf bool_ok cfg.
Proof. apply create_filter_own. Qed.
Theorem C103_estimation bool_ok estimation_plugin plugins all cfg : with_plugins estimation_modules plugins all -> not_a_plugin "estimation_method" plugins cfg ->
  option_map snd (create_estimation bool_ok estimation_plugin (imported all []) None cfg) = estimation_check_conf bool_ok cfg.
Proof.
  intros W N. unfold create_estimation. rewrite (new_own _ _ _ _ _ estimation_distinct W N). cbn [new_instance].
  assert (X : forall d, estimation_check_conf bool_ok cfg = Some d -> lookup "estimation_method" cfg = Some (JStr "phase_cross_correlation")).
  { intros d H. unfold estimation_check_conf in H. set (c := set_default _ _ _) in H.
    destruct (validate (estimation_schema bool_ok) c) eqn:V; [ | discriminate ].
    assert (E : lookup "estimation_method" c = lookup "estimation_method" cfg).
    { assert (D : forall k v x, k <> "estimation_method" -> lookup "estimation_method" (set_default k v x) = lookup "estimation_method" x).
      { intros k v x Hk. unfold set_default. destruct (lookup k x); [ reflexivity | ]. rewrite lookup_assign.
        destruct (String.eqb_spec "estimation_method" k); [ subst; contradiction | reflexivity ]. }
      unfold c. rewrite !D by discriminate. reflexivity. }
    rewrite <- E. destruct (lookup "estimation_method" c) as [v |] eqn:L.
    - destruct (validate_lookup _ _ _ _ V L) as (m & p & P & Q). cbn in P. injection P as _ <-. unfold is_string in Q.
      destruct v; try discriminate Q. apply String.eqb_eq in Q. subst s. reflexivity.
    - unfold validate in V. apply andb_true_iff in V. destruct V as [_ V]. cbn in V. rewrite L in V. discriminate V. }
  destruct (lookup "estimation_method" cfg) as [v |].
  2: { destruct (estimation_check_conf bool_ok cfg) as [d |]; [ discriminate (X d eq_refl) | reflexivity ]. }
  destruct v; try (destruct (estimation_check_conf bool_ok cfg) as [d' |]; [ discriminate (X d' eq_refl) | reflexivity ]).
  rewrite estimations_found. destruct ("phase_cross_correlation" =? s) eqn:E.
  - cbn [estimation_constructor]. destruct (estimation_check_conf bool_ok cfg); reflexivity.
  - destruct (estimation_check_conf bool_ok cfg) as [d |]; [ | reflexivity ]. specialize (X d eq_refl). injection X as ->. discriminate E.
Qed.

(** A plugin with a name of its own is used for the sections that name it, with its own check and nothing else. *)
Theorem C103_plugin bool_ok refinement_plugin filter_plugin registrations filters step window_size cfg name n :
  last_registered name (RefinementPlugin n) registrations -> lookup "refinement_method" cfg = Some (JStr name) ->
  option_map snd (create_refinement bool_ok refinement_plugin filter_plugin (imported registrations []) filters None step window_size cfg) =
  refinement_plugin n step window_size cfg.
Proof.
  intros L E. unfold create_refinement. cbn [new_instance]. rewrite E. apply registered_last in L. rewrite L. cbn [refinement_constructor].
  destruct (refinement_plugin n step window_size cfg); reflexivity.
Qed.

(** Called on a class that is not abstract, __new__ reads no configuration: the method of the section is checked by the schema of the class only, so a
    section of another method is refused. *)
Theorem C103_direct bool_ok refinement_plugin filter_plugin refinements filters step window_size cfg name c c' d :
  refinement_named name c -> NoDup (keys cfg) -> lookup "refinement_method" cfg = Some (JStr name) ->
  (forall n, c' <> RefinementPlugin n) ->
  create_refinement bool_ok refinement_plugin filter_plugin refinements filters (Some c') step window_size cfg = Some d -> c' = c.
Proof.
  intros R ND L P H. unfold create_refinement in H. cbn [new_instance] in H.
  assert (V : forall (s : schema) x v m p, validate s x = true -> lookup "refinement_method" x = Some v -> lookup "refinement_method" s = Some (m, p) -> p v = true).
  { intros s x v m p V X Y. destruct (validate_lookup _ _ _ _ V X) as (m' & p' & A & B). rewrite Y in A. injection A as -> ->. exact B. }
  destruct c'; cbn [refinement_constructor] in H.
  - unfold interpolation_init in H. destruct (validate interpolation_schema cfg) eqn:E; [ | discriminate ].
    specialize (V _ _ _ _ _ E L eq_refl). cbn in V. apply String.eqb_eq in V. subst name. inversion R. reflexivity.
  - unfold optical_flow_init in H. set (x := set_default _ _ _) in H. destruct (validate (optical_flow_schema bool_ok) x) eqn:E; [ | discriminate ].
    assert (L' : lookup "refinement_method" x = Some (JStr name)).
    { unfold x, set_default. destruct (lookup "iterations" _); rewrite ?lookup_assign; cbn; exact L. }
    specialize (V _ _ _ _ _ E L' eq_refl). cbn in V. apply String.eqb_eq in V. subst name. inversion R. reflexivity.
  - unfold dichotomy_constructor in H. destruct (validate (dichotomy_schema_with bool_ok filters) cfg) eqn:E; [ | discriminate ].
    specialize (V _ _ _ _ _ E L eq_refl). cbn in V. apply String.eqb_eq in V. subst name. inversion R. reflexivity.
  - exfalso. exact (P n eq_refl).
Qed.

(** Nothing protects a name of the project: a plugin registered later under the name of a method of the project takes its place without any error or message,
    so the same configuration file gives another class. *)
Theorem C103_replaced_refuted : exists (plugins : list (string * refinement_class)) cfg c,
  (forall name c, In (name, c) plugins -> exists n, c = RefinementPlugin n) /\
  new_instance "refinement_method" (imported refinement_modules []) None (Some cfg) = Some c /\
  new_instance "refinement_method" (imported (refinement_modules ++ plugins) []) None (Some cfg) <> Some c.
Proof.
  exists [("dichotomy", RefinementPlugin 0)], [("refinement_method", JStr "dichotomy")], Dichotomy. split; [ | split ].
  - intros name c [E | []]. injection E as _ <-. exists 0%nat. reflexivity.
  - reflexivity.
  - discriminate.
Qed.

(** * Examples *)
(** The modules in another order, and a plugin between them. *)
Definition rg_all : list (string * refinement_class) := [("dichotomy", Dichotomy); ("parabola", RefinementPlugin 7); ("interpolation", Interpolation); ("optical_flow", OpticalFlow)].
Definition rg_filters : list (string * filter_class) := [("spline", FilterPlugin 2); ("sinc", CardinalSine); ("bicubic", Bicubic)].
Definition rg_filter : dict := [("method", JStr "sinc"); ("size", JInt 8)].
Definition rg_cfg : dict := [("refinement_method", JStr "dichotomy"); ("iterations", JInt 12); ("filter", JDict rg_filter)].
Definition rg_estimation : dict := [("estimation_method", JStr "phase_cross_correlation"); ("range_col", JInt 7)].
Definition rg_estimations : list (string * estimation_class) := [("sift", EstimationPlugin 1); ("phase_cross_correlation", PhaseCrossCorrelation)].
Example C103_all : with_plugins refinement_modules [("parabola", RefinementPlugin 7)] rg_all /\ with_plugins filter_modules [("spline", FilterPlugin 2)] rg_filters /\
  with_plugins estimation_modules [("sift", EstimationPlugin 1)] rg_estimations.
Proof.
  split; [ | split ]; split.
  - apply NoDup_Permutation; [ | | intros x; cbn; tauto ]; repeat constructor; cbn; intuition discriminate.
  - intros n c c' H [E | []]. injection E as <- <-. destruct H as [H | [H | [H | []]]]; discriminate H.
  - apply NoDup_Permutation; [ | | intros x; cbn; tauto ]; repeat constructor; cbn; intuition discriminate.
  - intros n c c' H [E | []]. injection E as <- <-. destruct H as [H | [H | []]]; discriminate H.
  - apply NoDup_Permutation; [ | | intros x; cbn; tauto ]; repeat constructor; cbn; intuition discriminate.
  - intros n c c' H [E | []]. injection E as <- <-. destruct H as [H | []]; discriminate H.
Qed.
(** The number of iterations is lowered to 9 and the object is of the class Dichotomy; the filter is a cardinal sine. *)
Example C103_example : forall b plugin fplugin, create_refinement b plugin fplugin (imported rg_all []) (imported rg_filters []) None None (JInt 5) rg_cfg =
    Some (Dichotomy, [("refinement_method", JStr "dichotomy"); ("iterations", JInt 9); ("filter", JDict rg_filter)]) /\
  not_a_plugin "refinement_method" [("parabola", RefinementPlugin 7)] rg_cfg /\ filter_not_a_plugin [("spline", FilterPlugin 2)] rg_cfg /\
  NoDup (keys rg_cfg) /\ not_a_plugin "method" [("spline", FilterPlugin 2)] rg_filter /\
  not_a_plugin "estimation_method" [("sift", EstimationPlugin 1)] rg_estimation /\
  (forall eplugin, create_estimation b eplugin (imported rg_estimations []) None rg_estimation =
    Some (PhaseCrossCorrelation, [("estimation_method", JStr "phase_cross_correlation"); ("range_col", JInt 7); ("range_row", JInt 5); ("sample_factor", JInt 1)])).
Proof.
  intros b plugin fplugin. repeat split.
  - intros n c [E | []]. injection E as <- <-. discriminate.
  - intros f E. injection E as <-. intros n c [E | []]. injection E as <- <-. discriminate.
  - repeat constructor; cbn; intuition discriminate.
  - intros n c [E | []]. injection E as <- <-. discriminate.
  - intros n c [E | []]. injection E as <- <-. discriminate.
Qed.
(** The plugin is used for its name; its name registered twice gives the second class. *)
Example C103_plugin_example : last_registered "parabola" (RefinementPlugin 7) (("parabola", RefinementPlugin 3) :: rg_all) /\
  new_instance "refinement_method" (imported (("parabola", RefinementPlugin 3) :: rg_all) []) None (Some [("refinement_method", JStr "parabola")]) = Some (RefinementPlugin 7).
Proof.
  split; [ | reflexivity ]. exists [("parabola", RefinementPlugin 3); ("dichotomy", Dichotomy)], [("interpolation", Interpolation); ("optical_flow", OpticalFlow)].
  split; [ reflexivity | ]. intros c' [E | [E | []]]; discriminate E.
Qed.
(** A direct call of the class of the section. *)
Example C103_direct_example : forall b plugin fplugin, create_refinement b plugin fplugin [] (imported rg_filters []) (Some Dichotomy) None (JInt 5) rg_cfg <> None /\
  create_refinement b plugin fplugin [] (imported rg_filters []) (Some OpticalFlow) None (JInt 5) rg_cfg = None.
Proof. intros b plugin fplugin. split; [ discriminate | reflexivity ]. Qed.

Print Assumptions C103_registered.
Print Assumptions C103_unknown.
Print Assumptions C103_refinement_class.
Print Assumptions C103_filter_class.
Print Assumptions C103_estimation_class.
Print Assumptions C103_refinement.
Print Assumptions C103_filter.
Print Assumptions C103_estimation.
Print Assumptions C103_plugin.
Print Assumptions C103_direct.
Print Assumptions C103_replaced_refuted.
