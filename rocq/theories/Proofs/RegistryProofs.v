(** Proofs on the registered classes. *)
From Coq Require Import List String Bool ZArith Lia Permutation.
From Verif Require Import Base.Json Model.ConfigModel Model.RegistryModel Spec.RegistrySpec.
Import ListNotations.
Open Scope string_scope.
Open Scope list_scope.

Section Registry.
  Context {cls : Type}.
  Implicit Type r : @registry cls.

  Lemma registered_register : forall r name c n, registered n (register_subclass name c r) = if name =? n then Some c else registered n r.
  Proof.
    induction r as [| [m d] r' IH]; intros name c n; cbn [register_subclass registered]; [ reflexivity | ].
    destruct (m =? name) eqn:E.
    - apply String.eqb_eq in E. subst m. cbn [registered]. destruct (name =? n); reflexivity.
    - cbn [registered]. rewrite IH. destruct (m =? n) eqn:M; [ | reflexivity ].
      apply String.eqb_eq in M. subst m. rewrite String.eqb_sym in E. rewrite E. reflexivity.
  Qed.

  Lemma imported_snoc : forall l m r, imported (l ++ [m]) r = register_subclass (fst m) (snd m) (imported l r).
  Proof. intros l m r. unfold imported. rewrite fold_left_app. reflexivity. Qed.

  Lemma last_registered_snoc : forall (l : list (string * cls)) m d n c, last_registered n c (l ++ [(m, d)]) <-> (m = n /\ d = c) \/ (m <> n /\ last_registered n c l).
  Proof.
    intros l m d n c. split.
    - intros (b & a & E & N). destruct (@exists_last _ ((n, c) :: a)) as (a' & x & E'); [ discriminate | ].
      rewrite E' in E. rewrite app_assoc in E. apply app_inj_tail in E. destruct E as [E <-].
      destruct a' as [| y a'']; cbn in E'.
      + injection E' as A B C. left. auto.
      + injection E' as A B. subst y a. right. split.
        * intros ->. apply (N d). apply in_or_app. right. left. reflexivity.
        * exists b, a''. split; [ exact E | ]. intros c' I. apply (N c'). apply in_or_app. left. exact I.
    - intros [[-> ->] | [M (b & a & -> & N)]].
      + exists l, []. split; [ reflexivity | auto ].
      + exists b, (a ++ [(m, d)]). split; [ rewrite <- app_assoc; reflexivity | ].
        intros c' I. apply in_app_or in I. destruct I as [I | [I | []]]; [ apply (N c' I) | ]. injection I as -> _. apply M. reflexivity.
  Qed.

  Lemma registered_last : forall (l : list (string * cls)) n c, registered n (imported l []) = Some c <-> last_registered n c l.
  Proof.
    intros l. induction l as [| [m d] l IH] using rev_ind; intros n c.
    - split; [ discriminate | ]. intros (b & a & E & _). destruct b; discriminate.
    - rewrite imported_snoc, registered_register, last_registered_snoc. cbn [fst snd]. destruct (m =? n) eqn:E.
      + apply String.eqb_eq in E. split; [ intros [= ->]; auto | ]. intros [[_ ->] | [X _]]; [ reflexivity | contradiction ].
      + apply String.eqb_neq in E. rewrite IH. split; [ auto | ]. intros [[X _] | [_ L]]; [ contradiction | exact L ].
  Qed.

  Lemma registered_none : forall (l : list (string * cls)) n, registered n (imported l []) = None <-> forall c, ~ In (n, c) l.
  Proof.
    intros l. induction l as [| [m d] l IH] using rev_ind; intros n.
    - split; [ intros _ c [] | reflexivity ].
    - rewrite imported_snoc, registered_register. cbn [fst snd]. destruct (m =? n) eqn:E.
      + apply String.eqb_eq in E. subst m. split; [ discriminate | ]. intros H. exfalso. apply (H d). apply in_or_app. right. left. reflexivity.
      + apply String.eqb_neq in E. rewrite IH. split; intros H c I.
        * apply in_app_or in I. destruct I as [I | [I | []]]; [ exact (H c I) | ]. injection I as X _. contradiction.
        * apply (H c). apply in_or_app. left. exact I.
  Qed.

  (** When the names of the modules are all different, the order does not matter. *)
  Lemma last_of_plugins : forall (modules plugins all : list (string * cls)) n c, NoDup (map fst modules) -> with_plugins modules plugins all -> In (n, c) modules -> last_registered n c all.
  Proof.
    intros modules plugins all n c ND [P X] I.
    assert (U : forall c', In (n, c') all -> c' = c).
    { intros c' J. apply (Permutation_in _ P) in J. apply in_app_or in J. destruct J as [J | J].
      - clear - ND I J. induction modules as [| [m d] l IH]; [ destruct I | ]. cbn in ND. inversion ND as [| ? ? N1 N2]; subst.
        destruct I as [I | I], J as [J | J].
        + congruence.
        + injection I as -> ->. exfalso. apply N1. apply in_map_iff. exists (n, c'). auto.
        + injection J as -> ->. exfalso. apply N1. apply in_map_iff. exists (n, c). auto.
        + exact (IH N2 I J).
      - exfalso. exact (X n c c' I J). }
    assert (A : In (n, c) all) by (apply (Permutation_in _ (Permutation_sym P)); apply in_or_app; auto).
    destruct (registered n (imported all [])) as [c' |] eqn:E.
    - apply registered_last in E. destruct E as (b & a & -> & N). assert (Q : c' = c) by (apply U; apply in_or_app; right; left; reflexivity).
      subst c'. exists b, a. auto.
    - pose proof (proj1 (registered_none all n) E). exfalso. exact (H c A).
  Qed.

  Lemma registered_plugins : forall (modules plugins all : list (string * cls)) n c, NoDup (map fst modules) -> with_plugins modules plugins all ->
    In (n, c) modules -> registered n (imported all []) = Some c.
  Proof. intros. apply registered_last. eapply last_of_plugins; eassumption. Qed.

  (** A name of no plugin: only the modules. *)
  Lemma registered_own : forall (modules plugins all : list (string * cls)) n, NoDup (map fst modules) -> with_plugins modules plugins all -> (forall c, ~ In (n, c) plugins) ->
    registered n (imported all []) = registered n (imported modules []).
  Proof.
    intros modules plugins all n ND W N.
    destruct (registered n (imported modules [])) as [c |] eqn:E.
    - apply registered_last in E. destruct E as (b & a & E & _). apply (registered_plugins modules plugins all n c ND W). rewrite E. apply in_or_app. right. left. reflexivity.
    - apply registered_none. intros c I. pose proof (proj1 (registered_none modules n) E) as F. destruct W as [P _].
      apply (Permutation_in _ P) in I. apply in_app_or in I. destruct I as [I | I]; [ exact (F c I) | exact (N c I) ].
  Qed.
End Registry.

Lemma refinement_names : forall n c, In (n, c) refinement_modules <-> refinement_named n c.
Proof.
  intros n c. split.
  - intros [E | [E | [E | []]]]; injection E as <- <-; constructor.
  - intros []; cbn; auto.
Qed.
Lemma filter_names : forall n c, In (n, c) filter_modules <-> filter_named n c.
Proof.
  intros n c. split.
  - intros [E | [E | []]]; injection E as <- <-; constructor.
  - intros []; cbn; auto.
Qed.
Lemma estimation_names : forall n c, In (n, c) estimation_modules <-> estimation_named n c.
Proof.
  intros n c. split.
  - intros [E | []]; injection E as <- <-; constructor.
  - intros []; cbn; auto.
Qed.

Ltac distinct := cbn; repeat (constructor; [ cbn; intuition discriminate | ]); constructor.
Lemma refinement_distinct : NoDup (map fst refinement_modules). Proof. distinct. Qed.
Lemma filter_distinct : NoDup (map fst filter_modules). Proof. distinct. Qed.
Lemma estimation_distinct : NoDup (map fst estimation_modules). Proof. distinct. Qed.

(** An object of the abstract class: the class whose name is the method. *)
Lemma new_named {cls : Type} : forall key (r : @registry cls) cfg c,
  new_instance key r None (Some cfg) = Some c <-> exists n, lookup key cfg = Some (JStr n) /\ registered n r = Some c.
Proof.
  intros key r cfg c. cbn. destruct (lookup key cfg) as [[] |]; (split; [ intros E; try discriminate; eauto | intros (n & E & F); try discriminate E ]).
  injection E as <-. exact F.
Qed.

Lemma new_own {cls : Type} : forall key modules plugins (all : list (string * cls)) cfg, NoDup (map fst modules) -> with_plugins modules plugins all ->
  not_a_plugin key plugins cfg -> new_instance key (imported all []) None (Some cfg) = new_instance key (imported modules []) None (Some cfg).
Proof.
  intros key modules plugins all cfg ND W N. cbn. destruct (lookup key cfg) as [[] |] eqn:L; try reflexivity.
  apply (registered_own modules plugins all s ND W). intros c I. exact (N s c I L).
Qed.

(** Two schemas with the same keys, whose predicates agree on the values of the section. *)
Lemma validate_same : forall (s : schema) k m p p' s' cfg, (forall v, In (k, v) cfg -> p v = p' v) ->
  validate (s ++ (k, (m, p)) :: s') cfg = validate (s ++ (k, (m, p')) :: s') cfg.
Proof.
  intros s k m p p' s' cfg H. unfold validate. f_equal.
  - assert (E : forall kv, In kv cfg -> match lookup (fst kv) (s ++ (k, (m, p)) :: s') with Some (_, q) => q (snd kv) | None => false end =
                                        match lookup (fst kv) (s ++ (k, (m, p')) :: s') with Some (_, q) => q (snd kv) | None => false end).
    { intros [n v] I. cbn [fst snd]. induction s as [| [n' q] s IH]; cbn [app lookup].
      - destruct (n =? k) eqn:E; [ | reflexivity ]. apply String.eqb_eq in E. subst n. apply H. exact I.
      - destruct (n =? n'); [ reflexivity | exact IH ]. }
    induction cfg as [| kv cfg IH]; [ reflexivity | ]. cbn [forallb]. rewrite (E kv (or_introl eq_refl)). f_equal.
    apply IH; [ intros v I; apply H; right; exact I | intros x I; apply E; right; exact I ].
  - rewrite !forallb_app. reflexivity.
Qed.

Lemma filters_found : forall s, registered s (imported filter_modules []) = if "bicubic" =? s then Some Bicubic else if "sinc" =? s then Some CardinalSine else None.
Proof. reflexivity. Qed.
Lemma refinements_found : forall s, registered s (imported refinement_modules []) =
  if "interpolation" =? s then Some Interpolation else if "optical_flow" =? s then Some OpticalFlow else if "dichotomy" =? s then Some Dichotomy else None.
Proof. reflexivity. Qed.
Lemma estimations_found : forall s, registered s (imported estimation_modules []) = if "phase_cross_correlation" =? s then Some PhaseCrossCorrelation else None.
Proof. reflexivity. Qed.

(** Without plugins, the same checks as the model of the configuration. *)
Lemma filter_listed_plain : forall j, filter_listed (imported filter_modules []) j = filter_method_available j.
Proof.
  intros j. destruct j; try reflexivity. unfold filter_listed, filter_method_available. destruct (lookup "method" d) as [[] |]; try reflexivity.
  rewrite filters_found.
  rewrite (String.eqb_sym s "bicubic"), (String.eqb_sym s "sinc"). destruct ("bicubic" =? s), ("sinc" =? s); reflexivity.
Qed.
Lemma filter_listed_own : forall plugins all j, with_plugins filter_modules plugins all -> (forall f, j = JDict f -> not_a_plugin "method" plugins f) ->
  filter_listed (imported all []) j = filter_method_available j.
Proof.
  intros plugins all j W N. rewrite <- filter_listed_plain. destruct j; try reflexivity. unfold filter_listed.
  destruct (lookup "method" d) as [[] |] eqn:L; try reflexivity.
  rewrite (registered_own filter_modules plugins all s filter_distinct W); [ reflexivity | ].
  intros c I. exact (N d eq_refl s c I L).
Qed.

Lemma create_filter_own : forall bool_ok filter_plugin plugins all cfg, with_plugins filter_modules plugins all -> not_a_plugin "method" plugins cfg ->
  option_map snd (create_filter bool_ok filter_plugin (imported all []) None cfg) = filter_check_conf bool_ok cfg.
Proof.
  intros bool_ok fp plugins all cfg W N. unfold create_filter. rewrite (new_own "method" filter_modules plugins all cfg filter_distinct W N).
  unfold filter_check_conf. cbn [new_instance]. destruct (lookup "method" cfg) as [[] |]; try reflexivity.
  rewrite filters_found.
  rewrite (String.eqb_sym s "bicubic"), (String.eqb_sym s "sinc"). destruct ("bicubic" =? s).
  - cbn. destruct (validate _ _); reflexivity.
  - destruct ("sinc" =? s); [ | reflexivity ]. cbn. destruct (validate _ _); reflexivity.
Qed.

Lemma lookup_assign_iterations : forall cfg, lookup "filter" (assign "iterations" (JInt 9) cfg) = lookup "filter" cfg.
Proof.
  induction cfg as [| [k v] cfg IH]; [ reflexivity | ]. cbn [assign]. destruct ("iterations" =? k) eqn:E.
  - apply String.eqb_eq in E. subst k. reflexivity.
  - cbn [lookup]. rewrite IH. reflexivity.
Qed.

Lemma dichotomy_own : forall bool_ok filter_plugin plugins all cfg, with_plugins filter_modules plugins all -> NoDup (keys cfg) -> filter_not_a_plugin plugins cfg ->
  dichotomy_constructor bool_ok filter_plugin (imported all []) cfg = dichotomy_init bool_ok cfg.
Proof.
  intros bool_ok fp plugins all cfg W ND N. unfold dichotomy_constructor, dichotomy_init, dichotomy_check_conf, dichotomy_schema_with, dichotomy_schema.
  change [("refinement_method", (true, is_string "dichotomy")); ("iterations", (true, int_such_that bool_ok (fun z => (0 <? z)%Z))); ("filter", (true, filter_listed (imported all [])))]
    with ([("refinement_method", (true, is_string "dichotomy")); ("iterations", (true, int_such_that bool_ok (fun z => (0 <? z)%Z)))]
          ++ ("filter", (true, filter_listed (imported all []))) :: []).
  rewrite (validate_same _ "filter" true (filter_listed (imported all [])) filter_method_available [] cfg).
  - cbn [app]. destruct (validate _ _); [ | reflexivity ]. destruct (lookup "iterations" cfg) as [j |]; [ | reflexivity ].
    destruct (as_int bool_ok j) as [z |]; [ | reflexivity ].
    assert (E : forall cfg', lookup "filter" cfg' = lookup "filter" cfg ->
      match lookup "filter" cfg' with Some (JDict f) => match create_filter bool_ok fp (imported all []) None f with Some _ => Some cfg' | None => None end | _ => None end =
      match lookup "filter" cfg' with Some (JDict f) => match filter_check_conf bool_ok f with Some _ => Some cfg' | None => None end | _ => None end).
    { intros cfg' F. rewrite F. destruct (lookup "filter" cfg) as [[] |] eqn:L; try reflexivity.
      rewrite <- (create_filter_own bool_ok fp plugins all d W (N d L)). destruct (create_filter _ _ _ _ _); reflexivity. }
    cbv zeta. destruct (9 <? z)%Z; apply E; [ apply lookup_assign_iterations | reflexivity ].
  - intros v I. apply (filter_listed_own plugins all v W). intros f ->. apply N. apply In_lookup; assumption.
Qed.
