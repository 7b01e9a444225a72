(** Proofs about the checks of the steps. *)
From Coq Require Import List String Bool ZArith QArith Lia.
From Verif Require Import Base.Json Model.ConfigModel Spec.ConfigSpec Proofs.ConfigProofs.
Import ListNotations.
Open Scope Z_scope.
Open Scope string_scope.
Open Scope list_scope.

Section Steps.
  Variable bool_ok : bool.

  Lemma as_int_value j n : as_int bool_ok j = Some n <-> int_value bool_ok j n.
  Proof.
    split.
    - destruct j; cbn; try discriminate.
      + destruct bool_ok eqn:E; [|discriminate]. intros H. injection H as <-. destruct b; constructor; auto.
      + intros H. injection H as <-. constructor.
    - intros H. inversion H; subst; cbn; auto; now rewrite H0.
  Qed.
  Lemma int_such_that_spec p (P : Z -> Prop) : (forall z, p z = true <-> P z) ->
    forall j, int_such_that bool_ok p j = true <-> integer bool_ok P j.
  Proof.
    intros H j. unfold int_such_that, integer. split.
    - destruct (as_int bool_ok j) as [z|] eqn:E; [|discriminate]. intros Hp. exists z. split; [now apply as_int_value | now apply H].
    - intros (n & Hn & HP). apply as_int_value in Hn. rewrite Hn. now apply H.
  Qed.
  Lemma is_string_spec s j : is_string s j = true <-> string_among [s] j.
  Proof.
    unfold is_string, string_among. split.
    - destruct j; try discriminate. intros H. apply String.eqb_eq in H. subst. exists s. split; [now left | reflexivity].
    - intros (s' & [<-|[]] & ->). apply String.eqb_refl.
  Qed.
  Lemma odd_spec z : negb (Z.eqb (z mod 2) 0) = true <-> Z.Odd z.
  Proof.
    rewrite negb_true_iff, Z.eqb_neq. pose proof (Z.div_mod z 2). pose proof (Z.mod_pos_bound z 2). split.
    - intros. exists (z / 2). lia.
    - intros [m ->] E. lia.
  Qed.
  Lemma at_least_one_spec j : at_least_one j = true <-> number_at_least_one j.
  Proof.
    split.
    - destruct j; cbn; try discriminate; intros H.
      + subst. constructor.
      + constructor. lia.
      + constructor. now apply Qle_bool_iff.
      + subst. constructor.
    - intros H. inversion H; subst; cbn; auto; [lia | now apply Qle_bool_iff].
  Qed.
  Lemma step_schema_spec j : step_schema j = true <-> pair_at_least_one j.
  Proof.
    unfold step_schema, pair_at_least_one. split.
    - destruct j as [| | | | | | |l|]; try discriminate. destruct l as [|a [|b [|c l]]]; try discriminate. cbn [List.length Nat.eqb forallb andb].
      rewrite !andb_true_iff, !at_least_one_spec. intros (Ha & Hb & _). exists a, b. auto.
    - intros (a & b & -> & Ha & Hb). cbn. apply at_least_one_spec in Ha, Hb. now rewrite Ha, Hb.
  Qed.

  Ltac nodup := repeat constructor; cbn; intros H; repeat (destruct H as [H|H]; [discriminate|]); destruct H.
  Ltac fields := repeat (constructor; [split; [reflexivity|split; [reflexivity|cbn [fst snd]; try apply is_string_spec]]|]); try apply Forall2_nil.

  (** * Estimation *)
  Definition estimation_all : list field :=
    [("estimation_method", true, string_among ["phase_cross_correlation"]);
     ("range_row", true, integer bool_ok (fun n => 3 <= n /\ Z.Odd n));
     ("range_col", true, integer bool_ok (fun n => 3 <= n /\ Z.Odd n));
     ("sample_factor", true, integer bool_ok (fun n => n = 1 \/ exists m, 1 <= m /\ n = 10 * m))].
  Lemma range_spec z : (Z.ltb 2 z) && negb (Z.eqb (z mod 2) 0) = true <-> 3 <= z /\ Z.Odd z.
  Proof. rewrite andb_true_iff, odd_spec, Z.ltb_lt. split; intros [? ?]; split; auto; lia. Qed.
  Lemma factor_spec z : (Z.eqb (z mod 10) 0 || Z.eqb z 1) && (Z.ltb 0 z) = true <-> z = 1 \/ exists m, 1 <= m /\ z = 10 * m.
  Proof.
    rewrite andb_true_iff, orb_true_iff, !Z.eqb_eq, Z.ltb_lt. pose proof (Z.div_mod z 10). split.
    - intros [[H1|H1] H2]; [right; exists (z / 10); lia | auto].
    - intros [->|(m & Hm & ->)]; [split; [now right | lia]|]. split; [left|lia]. rewrite Z.mul_comm. apply Z.mod_mul. lia.
  Qed.
  Lemma estimation_valid cfg : NoDup (keys cfg) -> (validate (estimation_schema bool_ok) cfg = true <-> described estimation_all cfg).
  Proof.
    intros Hn. apply validate_described; [|nodup|auto]. unfold estimation_schema, estimation_all. fields.
    - apply int_such_that_spec, range_spec.
    - apply int_such_that_spec, range_spec.
    - apply int_such_that_spec, factor_spec.
  Qed.
  Lemma int3 : integer bool_ok (fun n => 3 <= n /\ Z.Odd n) (JInt 5).
  Proof. exists 5. split; [constructor|]. split; [lia | exists 2; lia]. Qed.
  Lemma estimation_accepts cfg : NoDup (keys cfg) ->
    (estimation_check_conf bool_ok cfg <> None <-> described (estimation_fields bool_ok) cfg).
  Proof.
    intros Hn. unfold estimation_check_conf. set (c := set_default "sample_factor" _ _).
    assert (Hc : NoDup (keys c)) by (unfold c; now repeat apply set_default_nodup).
    transitivity (validate (estimation_schema bool_ok) c = true).
    { destruct (validate (estimation_schema bool_ok) c); split; congruence. }
    rewrite estimation_valid by auto. unfold c, estimation_all.
    match goal with |- described [?a; ?b; ?d; (?k, true, ?P)] _ <-> _ => etransitivity; [apply (described_default [a; b; d] [] k P)|] end.
    { exists 1. split; [constructor | auto]. }
    { cbn. intros H; repeat (destruct H as [H|H]; [discriminate|]); destruct H. }
    cbn [app].
    match goal with |- described [?a; (?k, true, ?P); ?d; ?e] _ <-> _ => etransitivity; [apply (described_default [a] [d; e] k P)|] end.
    { apply int3. }
    { cbn. intros H; repeat (destruct H as [H|H]; [discriminate|]); destruct H. }
    cbn [app].
    match goal with |- described [?a; ?b; (?k, true, ?P); ?e] _ <-> _ => etransitivity; [apply (described_default [a; b] [e] k P)|] end.
    { apply int3. }
    { cbn. intros H; repeat (destruct H as [H|H]; [discriminate|]); destruct H. }
    reflexivity.
  Qed.

  (** * Filters *)
  Lemma bicubic_valid f : NoDup (keys f) -> (validate bicubic_schema f = true <-> described bicubic_fields f).
  Proof. intros Hn. apply validate_described; [|nodup|auto]. unfold bicubic_schema, bicubic_fields. fields. Qed.
  Lemma sinc_valid f : NoDup (keys f) -> (validate (sinc_schema bool_ok) f = true <-> described (sinc_fields bool_ok) f).
  Proof.
    intros Hn. apply validate_described; [|nodup|auto]. unfold sinc_schema, sinc_fields. fields.
    apply int_such_that_spec. intros z. rewrite andb_true_iff, !Z.leb_le. reflexivity.
  Qed.
  Lemma described_method s m (fs : list field) f : described ((m, true, string_among [s]) :: fs) f ->
    ~ In m (map (fun x : field => fst (fst x)) fs) -> lookup m f = Some (JStr s).
  Proof.
    intros [H1 H2] Hm. destruct (lookup m f) as [v|] eqn:E; [|exfalso; eapply H2; [now left | exact E]].
    destruct (H1 m v E) as (b & P & Hin & HP). cbn in Hin. destruct Hin as [Hin|Hin].
    - injection Hin as <- <-. destruct HP as (s' & [<-|[]] & ->). reflexivity.
    - exfalso. apply Hm. apply in_map_iff. exists (m, b, P). auto.
  Qed.
  Lemma filter_accepts f : NoDup (keys f) ->
    (filter_check_conf bool_ok f <> None <-> described bicubic_fields f \/ described (sinc_fields bool_ok) f).
  Proof.
    intros Hn. unfold filter_check_conf. split.
    - destruct (lookup "method" f) as [[| | | | | |s| |]|]; try congruence.
      destruct (s =? "bicubic"); [destruct (validate bicubic_schema f) eqn:E; [|congruence]; left; now apply bicubic_valid|].
      destruct (s =? "sinc"); [destruct (validate (sinc_schema bool_ok) f) eqn:E; [|congruence]; right; now apply sinc_valid | congruence].
    - intros [H|H].
      + rewrite (described_method _ _ _ _ H) by (cbn; tauto). cbn [String.eqb Ascii.eqb Bool.eqb].
        apply bicubic_valid in H; auto. now rewrite H.
      + rewrite (described_method _ _ _ _ H) by (cbn; intros [X|[]]; discriminate). cbn [String.eqb Ascii.eqb Bool.eqb].
        apply sinc_valid in H; auto. now rewrite H.
  Qed.
  Lemma filter_same f f' : filter_check_conf bool_ok f = Some f' -> f' = f.
  Proof.
    unfold filter_check_conf. destruct (lookup "method" f) as [[| | | | | |s| |]|]; try congruence.
    destruct (s =? "bicubic"); [destruct (validate _ f); congruence|].
    destruct (s =? "sinc"); [destruct (validate _ f); congruence | congruence].
  Qed.

  (** * Dichotomy *)
  Definition dichotomy_first : list field :=
    [("refinement_method", true, string_among ["dichotomy"]); ("iterations", true, integer bool_ok (fun n => 1 <= n));
     ("filter", true, fun j => filter_method_available j = true)].
  Lemma dichotomy_valid cfg : NoDup (keys cfg) -> (validate (dichotomy_schema bool_ok) cfg = true <-> described dichotomy_first cfg).
  Proof.
    intros Hn. apply validate_described; [|nodup|auto]. unfold dichotomy_schema, dichotomy_first. fields; try reflexivity.
    apply int_such_that_spec. intros z. rewrite Z.ltb_lt. lia.
  Qed.

  (** described for three mandatory keys *)
  Lemma described3 k1 k2 k3 (P1 P2 P3 : json -> Prop) cfg : k1 <> k2 -> k1 <> k3 -> k2 <> k3 ->
    (described [(k1, true, P1); (k2, true, P2); (k3, true, P3)] cfg <->
     (forall k, lookup k cfg <> None -> k = k1 \/ k = k2 \/ k = k3) /\
     (exists v, lookup k1 cfg = Some v /\ P1 v) /\ (exists v, lookup k2 cfg = Some v /\ P2 v) /\ (exists v, lookup k3 cfg = Some v /\ P3 v)).
  Proof.
    intros H12 H13 H23. unfold described. split.
    - intros [H1 H2]. split.
      { intros k Hk. destruct (lookup k cfg) as [v|] eqn:E; [|congruence].
        destruct (H1 k v E) as (m & P & Hin & _). cbn in Hin. destruct Hin as [Hin|[Hin|[Hin|[]]]]; injection Hin; auto. }
      assert (G : forall k (P : json -> Prop), In (k, true, P) [(k1, true, P1); (k2, true, P2); (k3, true, P3)] ->
        (forall m Q, In (k, m, Q) [(k1, true, P1); (k2, true, P2); (k3, true, P3)] -> Q = P) -> exists v, lookup k cfg = Some v /\ P v).
      { intros k P Hin HU. destruct (lookup k cfg) as [v|] eqn:E; [|exfalso; eapply H2; eauto].
        destruct (H1 k v E) as (m & Q & HQ & Hv). rewrite (HU _ _ HQ) in Hv. eauto. }
      repeat split; apply G; cbn; auto; intros m Q [H|[H|[H|[]]]]; injection H; intros; congruence.
    - intros (Hk & (v1 & L1 & V1) & (v2 & L2 & V2) & (v3 & L3 & V3)). split.
      + intros k v Hv. destruct (Hk k) as [-> | [-> | ->]]; [congruence| | |]; exists true.
        * exists P1. split; [cbn; auto | congruence].
        * exists P2. split; [cbn; auto | congruence].
        * exists P3. split; [cbn; auto | congruence].
      + intros k P [H|[H|[H|[]]]]; injection H as <- _; congruence.
  Qed.

  Lemma dichotomy_accepts cfg : wf (JDict cfg) -> (dichotomy_init bool_ok cfg <> None <-> described (dichotomy_fields bool_ok) cfg).
  Proof.
    intros Hw. pose proof (wf_dict_inv _ Hw) as [Hn Hv]. unfold dichotomy_init, dichotomy_check_conf.
    assert (V := dichotomy_valid cfg Hn). unfold dichotomy_first in V. rewrite described3 in V by discriminate.
    unfold dichotomy_fields. rewrite described3 by discriminate. split.
    - destruct (validate (dichotomy_schema bool_ok) cfg) eqn:E; [|congruence].
      destruct (proj1 V eq_refl) as (Hk & H1 & (j & Hj & Hi) & (f & Hf & _)). intros H.
      split; [exact Hk|]. split; [exact H1|]. split; [eauto|]. exists f. split; [exact Hf|].
      rewrite Hj in H. destruct (as_int bool_ok j) as [z|]; [|congruence].
      assert (Lf : lookup "filter" (if Z.ltb 9 z then assign "iterations" (JInt 9) cfg else cfg) = Some f).
      { destruct (Z.ltb 9 z); [rewrite lookup_assign|]; exact Hf. }
      destruct (Z.ltb 9 z); rewrite Lf in H; destruct f as [| | | | | | | |f]; try congruence;
        (exists f; split; [reflexivity|]; apply filter_accepts;
         [exact (proj1 (wf_dict_inv _ (wf_lookup _ _ _ Hw Hf))) | destruct (filter_check_conf bool_ok f); congruence]).
    - intros (Hk & H1 & (j & Hj & Hi) & (f & Hf & (fd & -> & Hfd))).
      assert (E : validate (dichotomy_schema bool_ok) cfg = true).
      { apply V. split; [exact Hk|]. split; [exact H1|]. split; [eauto|]. exists (JDict fd). split; [exact Hf|].
        cbn. destruct Hfd as [Hd|Hd];
          [rewrite (described_method _ _ _ _ Hd) by (cbn; tauto) | rewrite (described_method _ _ _ _ Hd) by (cbn; intros [X|[]]; discriminate)];
          reflexivity. }
      rewrite E, Hj. destruct Hi as (n & Hn' & Hle). apply as_int_value in Hn'. rewrite Hn'.
      apply filter_accepts in Hfd; [|exact (proj1 (wf_dict_inv _ (wf_lookup _ _ _ Hw Hf)))].
      destruct (Z.ltb 9 n); [rewrite lookup_assign; cbn [String.eqb Ascii.eqb Bool.eqb]|]; rewrite Hf;
        destruct (filter_check_conf bool_ok fd); congruence.
  Qed.

  (** Form of the result *)
  Lemma dichotomy_result cfg cfg' : dichotomy_init bool_ok cfg = Some cfg' ->
    exists j n, lookup "iterations" cfg = Some j /\ int_value bool_ok j n /\
      cfg' = if Z.ltb 9 n then assign "iterations" (JInt 9) cfg else cfg.
  Proof.
    unfold dichotomy_init, dichotomy_check_conf. destruct (validate _ cfg); [|discriminate].
    destruct (lookup "iterations" cfg) as [j|]; [|discriminate].
    destruct (as_int bool_ok j) as [z|] eqn:E; [|discriminate]. intros H. exists j, z. split; [reflexivity|].
    split; [now apply as_int_value|].
    destruct (Z.ltb 9 z); destruct (lookup "filter" _) as [[| | | | | | | |f]|]; try discriminate;
      destruct (filter_check_conf bool_ok f); congruence.
  Qed.

  Lemma dichotomy_again cfg cfg' : wf (JDict cfg) -> dichotomy_init bool_ok cfg = Some cfg' -> dichotomy_init bool_ok cfg' = Some cfg'.
  Proof.
    intros Hw H. destruct (dichotomy_result _ _ H) as (j & n & Hj & Hn & E).
    destruct (Z.ltb 9 n) eqn:El; [|now subst].
    assert (Hd : described (dichotomy_fields bool_ok) cfg) by (apply dichotomy_accepts; congruence).
    assert (Hw' : wf (JDict cfg')).
    { apply wf_dict_inv in Hw. destruct Hw as [Hk Hv]. subst. constructor; [now apply assign_nodup|].
      intros k v Hin. apply In_lookup in Hin; [|now apply assign_nodup]. rewrite lookup_assign in Hin.
      destruct (k =? "iterations"); [injection Hin as <-; now constructor | eapply Hv, lookup_In, Hin]. }
    assert (Hd' : described (dichotomy_fields bool_ok) cfg').
    { unfold dichotomy_fields in *. rewrite described3 in * by discriminate.
      destruct Hd as (H0 & (v1 & L1 & V1) & _ & (v3 & L3 & V3)). subst cfg'. split; [|split; [|split]].
      - intros k Hk. rewrite lookup_assign in Hk. destruct (k =? "iterations") eqn:Ek; [apply String.eqb_eq in Ek; auto | auto].
      - exists v1. rewrite lookup_assign. auto.
      - exists (JInt 9). rewrite lookup_assign. split; [reflexivity|]. exists 9. split; [constructor | lia].
      - exists v3. rewrite lookup_assign. auto. }
    apply dichotomy_accepts in Hd'; auto. destruct (dichotomy_init bool_ok cfg') as [c|] eqn:Ec; [|congruence].
    destruct (dichotomy_result _ _ Ec) as (j' & n' & Hj' & Hn' & E'). subst cfg'. rewrite lookup_assign in Hj'. cbn in Hj'.
    injection Hj' as <-. inversion Hn'; subst. reflexivity.
  Qed.

  (** * Optical flow *)
  Definition optical_flow_all : list field :=
    [("refinement_method", true, string_among ["optical_flow"]); ("iterations", true, integer bool_ok (fun n => 1 <= n));
     ("window_size", true, odd_window bool_ok); ("step", true, pair_at_least_one)].
  Lemma optical_flow_valid cfg : NoDup (keys cfg) -> (validate (optical_flow_schema bool_ok) cfg = true <-> described optical_flow_all cfg).
  Proof.
    intros Hn. apply validate_described; [|nodup|auto]. unfold optical_flow_schema, optical_flow_all. fields.
    - apply int_such_that_spec. intros z. rewrite Z.ltb_lt. lia.
    - apply int_such_that_spec. intros z. rewrite andb_true_iff, odd_spec, Z.ltb_lt. reflexivity.
    - apply step_schema_spec.
  Qed.
  Definition step_of (step : option json) : json := match step with Some s => s | None => JList [JInt 1; JInt 1] end.
  Lemma optical_flow_accepts step w cfg : NoDup (keys cfg) ->
    (optical_flow_init bool_ok step w cfg <> None <->
     described (optical_flow_fields bool_ok) cfg /\ odd_window bool_ok w /\ pair_at_least_one (step_of step)).
  Proof.
    intros Hn. unfold optical_flow_init. fold (step_of step). set (c1 := assign "step" (step_of step) (assign "window_size" w cfg)).
    assert (Hc1 : NoDup (keys c1)) by (unfold c1; now repeat apply assign_nodup).
    assert (Hc2 : NoDup (keys (set_default "iterations" (JInt 4) c1))) by now apply set_default_nodup.
    transitivity (validate (optical_flow_schema bool_ok) (set_default "iterations" (JInt 4) c1) = true).
    { destruct (validate _ _); split; congruence. }
    rewrite optical_flow_valid by auto. unfold optical_flow_all.
    match goal with |- described [?a; (?k, true, ?P); ?d; ?e] _ <-> _ => etransitivity; [apply (described_default [a] [d; e] k P)|] end.
    { exists 4. split; [constructor | lia]. }
    { cbn. intros H; repeat (destruct H as [H|H]; [discriminate|]); destruct H. }
    cbn [app]. 
    assert (L : forall k, lookup k c1 = if k =? "step" then Some (step_of step) else if k =? "window_size" then Some w else lookup k cfg).
    { intros k. unfold c1. now rewrite !lookup_assign. }
    unfold described, optical_flow_fields. split.
    - intros [H1 H2]. split; [split|split].
      + intros k v Hk. destruct (String.eqb_spec k "step") as [->|N1]; [exists false, (fun _ => True); split; [right; right; right; now left | exact I]|].
        destruct (String.eqb_spec k "window_size") as [->|N2]; [exists false, (fun _ => True); split; [right; right; now left | exact I]|].
        destruct (H1 k v) as (m & P & Hin & HP).
        { rewrite L. apply String.eqb_neq in N1, N2. now rewrite N1, N2. }
        cbn in Hin. destruct Hin as [Hin|[Hin|[Hin|[Hin|[]]]]]; injection Hin as <- <- <-; try congruence.
        * eexists; eexists; split; [now left | exact HP].
        * eexists; eexists; split; [right; now left | exact HP].
      + intros k P Hin. cbn in Hin. destruct Hin as [Hin|[Hin|[Hin|[Hin|[]]]]]; try discriminate. injection Hin as <- _.
        specialize (H2 "refinement_method" (string_among ["optical_flow"])). rewrite L in H2. apply H2. now left.
      + destruct (H1 "window_size" w) as (m & P & Hin & HP); [now rewrite L|].
        cbn in Hin. destruct Hin as [Hin|[Hin|[Hin|[Hin|[]]]]]; try discriminate. injection Hin as <- <-. exact HP.
      + destruct (H1 "step" (step_of step)) as (m & P & Hin & HP); [now rewrite L|].
        cbn in Hin. destruct Hin as [Hin|[Hin|[Hin|[Hin|[]]]]]; try discriminate. injection Hin as <- <-. exact HP.
    - intros ((H1 & H2) & Hw & Hs). split.
      + intros k v Hk. rewrite L in Hk. destruct (String.eqb_spec k "step") as [->|N1].
        { injection Hk as <-. eexists; eexists; split; [right; right; right; now left | exact Hs]. }
        destruct (String.eqb_spec k "window_size") as [->|N2].
        { injection Hk as <-. eexists; eexists; split; [right; right; now left | exact Hw]. }
        destruct (H1 k v Hk) as (m & P & Hin & HP). cbn in Hin.
        destruct Hin as [Hin|[Hin|[Hin|[Hin|[]]]]]; injection Hin as <- <- <-; try congruence.
        * eexists; eexists; split; [now left | exact HP].
        * eexists; eexists; split; [right; now left | exact HP].
      + intros k P Hin. rewrite L. cbn in Hin. destruct Hin as [Hin|[Hin|[Hin|[Hin|[]]]]]; try discriminate; injection Hin as <- _; cbn; try discriminate.
        apply (H2 _ (string_among ["optical_flow"])). now left.
  Qed.

  (** * Disparity *)
  Lemma np_isnan_isinf j : np_isnan j = true \/ np_isinf j = true <-> one_special j.
  Proof.
    split.
    - revert j. fix IH 1. intros j. destruct j as [| | | | | | |l|]; cbn; intros [H|H]; try discriminate; try constructor.
      + destruct l as [|x [|y l]]; try discriminate. constructor. apply IH. now left.
      + destruct l as [|x [|y l]]; try discriminate. constructor. apply IH. now right.
    - induction 1; cbn; auto.
  Qed.
  Definition disparity_all : list field :=
    [("disparity_method", true, string_among ["wta"]);
     ("invalid_disparity", true, fun j => integer bool_ok (fun _ => True) j \/ (exists q, j = JFloat q) \/ one_special j)].
  Lemma disparity_valid cfg : NoDup (keys cfg) -> (validate (disparity_schema bool_ok) cfg = true <-> described disparity_all cfg).
  Proof.
    intros Hn. apply validate_described; [|nodup|auto]. unfold disparity_schema, disparity_all. fields. intros j.
    rewrite !orb_true_iff, (int_such_that_spec _ (fun _ => True)) by tauto. rewrite <- np_isnan_isinf.
    split.
    - intros [[[H|H]|H]|H]; auto. destruct j; try discriminate; cbn; eauto.
    - intros [H|[[q ->]|[H|H]]]; auto.
  Qed.

  (** described for two mandatory keys *)
  Lemma described2 k1 k2 m2 (P1 P2 : json -> Prop) cfg : k1 <> k2 ->
    (described [(k1, true, P1); (k2, m2, P2)] cfg <->
     (forall k, lookup k cfg <> None -> k = k1 \/ k = k2) /\
     (exists v, lookup k1 cfg = Some v /\ P1 v) /\ (forall v, lookup k2 cfg = Some v -> P2 v) /\ (m2 = true -> lookup k2 cfg <> None)).
  Proof.
    intros H12. unfold described. split.
    - intros [H1 H2]. split; [|split; [|split]].
      + intros k Hk. destruct (lookup k cfg) as [v|] eqn:E; [|congruence].
        destruct (H1 k v E) as (m & P & Hin & _). cbn in Hin. destruct Hin as [Hin|[Hin|[]]]; injection Hin; auto.
      + destruct (lookup k1 cfg) as [v|] eqn:E; [|exfalso; eapply H2; [now left | exact E]].
        destruct (H1 k1 v E) as (m & P & Hin & HP). cbn in Hin. destruct Hin as [Hin|[Hin|[]]]; injection Hin; intros; subst; [eauto | congruence].
      + intros v Hv. destruct (H1 k2 v Hv) as (m & P & Hin & HP). cbn in Hin.
        destruct Hin as [Hin|[Hin|[]]]; injection Hin; intros; subst; [congruence | auto].
      + intros ->. apply (H2 k2 P2). cbn. auto.
    - intros (Hk & (v1 & L1 & V1) & V2 & M). split.
      + intros k v Hv. destruct (Hk k) as [->| ->]; [congruence| |].
        * exists true, P1. split; [cbn; auto | congruence].
        * exists m2, P2. split; [cbn; auto | auto].
      + intros k P [H|[H|[]]]; injection H as <- H; [congruence | apply M; auto].
  Qed.

  Definition disparity_completed (cfg : dict) : dict :=
    match lookup "invalid_disparity" cfg with
    | None => assign "invalid_disparity" (JInt (-9999)) cfg
    | Some (JStr s) => if s =? "NaN" then assign "invalid_disparity" JNan cfg else cfg
    | Some _ => cfg end.
  Lemma disparity_completed_nodup cfg : NoDup (keys cfg) -> NoDup (keys (disparity_completed cfg)).
  Proof.
    intros H. unfold disparity_completed. destruct (lookup _ cfg) as [[| | | | | |s| |]|]; auto; [|now apply assign_nodup].
    destruct (s =? "NaN"); [now apply assign_nodup | auto].
  Qed.
  Lemma disparity_lookup cfg k : lookup k (disparity_completed cfg) =
    if k =? "invalid_disparity" then
      Some (match lookup "invalid_disparity" cfg with
            | None => JInt (-9999) | Some (JStr s) => if s =? "NaN" then JNan else JStr s | Some j => j end)
    else lookup k cfg.
  Proof.
    unfold disparity_completed. destruct (String.eqb_spec k "invalid_disparity") as [->|N].
    - destruct (lookup "invalid_disparity" cfg) as [[| | | | | |s| |]|] eqn:E; auto; [|now rewrite lookup_assign].
      destruct (s =? "NaN"); [now rewrite lookup_assign | now rewrite E].
    - apply String.eqb_neq in N. destruct (lookup "invalid_disparity" cfg) as [[| | | | | |s| |]|] eqn:E; auto; [|now rewrite lookup_assign, N].
      destruct (s =? "NaN"); [now rewrite lookup_assign, N | reflexivity].
  Qed.
  Lemma disparity_accepts cfg : NoDup (keys cfg) ->
    (disparity_check_conf bool_ok cfg <> None <-> described (disparity_fields bool_ok) cfg).
  Proof.
    intros Hn. unfold disparity_check_conf. fold (disparity_completed cfg).
    transitivity (validate (disparity_schema bool_ok) (disparity_completed cfg) = true).
    { destruct (validate _ _); split; congruence. }
    rewrite disparity_valid by now apply disparity_completed_nodup. unfold disparity_all, disparity_fields.
    rewrite !described2 by discriminate.
    assert (K : forall k, lookup k (disparity_completed cfg) <> None <-> k = "invalid_disparity" \/ lookup k cfg <> None).
    { intros k. rewrite disparity_lookup. destruct (String.eqb_spec k "invalid_disparity"); [split; [auto | discriminate] | tauto]. }
    split.
    - intros (H0 & H1 & H2 & H3). split; [|split; [|split]].
      + intros k Hk. apply H0, K. auto.
      + destruct H1 as (v & L & V). exists v. rewrite disparity_lookup in L. auto.
      + intros v Hv. specialize (H2 (match v with JStr s => if s =? "NaN" then JNan else JStr s | j => j end)).
        rewrite disparity_lookup in H2. cbn [String.eqb Ascii.eqb Bool.eqb] in H2. rewrite Hv in H2.
        unfold invalid_disparity_ok. destruct v; specialize (H2 eq_refl); try (right; exact H2).
        destruct (s =? "NaN") eqn:Es; [left; f_equal; now apply String.eqb_eq | right; exact H2].
      + discriminate.
    - intros (H0 & H1 & H2 & _). split; [|split; [|split]].
      + intros k Hk. apply K in Hk. destruct Hk; auto.
      + destruct H1 as (v & L & V). exists v. rewrite disparity_lookup. auto.
      + intros v Hv. rewrite disparity_lookup in Hv. cbn [String.eqb Ascii.eqb Bool.eqb] in Hv. injection Hv as <-.
        destruct (lookup "invalid_disparity" cfg) as [j|] eqn:E.
        * specialize (H2 j eq_refl). destruct H2 as [->|H2]; [cbn; right; right; constructor|].
          destruct j; auto. exfalso. destruct H2 as [(n & Hi & _)|[(q & Hq)|Hs]]; [inversion Hi | discriminate | inversion Hs].
        * left. exists (-9999). split; [constructor | exact I].
      + intros _. apply K. auto.
  Qed.
  Lemma disparity_again cfg cfg' : NoDup (keys cfg) -> disparity_check_conf bool_ok cfg = Some cfg' ->
    cfg' = disparity_completed cfg /\ disparity_check_conf bool_ok cfg' = Some cfg'.
  Proof.
    intros Hn H. unfold disparity_check_conf in *. fold (disparity_completed cfg) in *. fold (disparity_completed cfg').
    destruct (validate (disparity_schema bool_ok) (disparity_completed cfg)) eqn:E; [|discriminate]. injection H as <-.
    split; [reflexivity|].
    assert (disparity_completed (disparity_completed cfg) = disparity_completed cfg) as ->; [|now rewrite E].
    unfold disparity_completed at 1. rewrite disparity_lookup. cbn [String.eqb Ascii.eqb Bool.eqb].
    destruct (lookup "invalid_disparity" cfg) as [[| | | | | |s| |]|]; auto.
    destruct (s =? "NaN") eqn:Es; [reflexivity | now rewrite Es].
  Qed.

  (** * ROI *)
  Definition axis_schema_ok (j : json) : Prop :=
    exists d, j = JDict d /\ described [("first", true, integer bool_ok (fun z => 0 <= z)); ("last", true, integer bool_ok (fun z => 0 <= z))] d.
  Lemma roi_axis_valid d : NoDup (keys d) -> (validate (roi_axis_schema bool_ok) d = true <->
    described [("first", true, integer bool_ok (fun z => 0 <= z)); ("last", true, integer bool_ok (fun z => 0 <= z))] d).
  Proof.
    intros Hn. apply validate_described; [|nodup|auto]. unfold roi_axis_schema. fields;
      apply int_such_that_spec; intros z; apply Z.leb_le.
  Qed.
  Lemma int_value_unique j n n' : int_value bool_ok j n -> int_value bool_ok j n' -> n = n'.
  Proof. intros H H'. apply as_int_value in H, H'. congruence. Qed.
  Lemma axis_coherent d : NoDup (keys d) ->
    (validate (roi_axis_schema bool_ok) d = true /\ check_roi_coherence bool_ok d = true <-> axis_ok bool_ok (JDict d)).
  Proof.
    intros Hn. rewrite roi_axis_valid by auto. rewrite described2 by discriminate. unfold axis_ok, check_roi_coherence. split.
    - intros ((H0 & (f & Lf & nf & Vf & Pf) & H2 & H3) & Hc). destruct (lookup "last" d) as [l|] eqn:Ll; [|exfalso; now apply H3].
      destruct (H2 l eq_refl) as (nl & Vl & Pl). rewrite Lf in Hc.
      pose proof (proj2 (as_int_value f nf) Vf) as Ef. pose proof (proj2 (as_int_value l nl) Vl) as El. rewrite Ef, El in Hc.
      exists d, nf, nl. split; [reflexivity|]. split; [|lia]. rewrite described2 by discriminate.
      split; [exact H0|]. split; [eauto|]. split; [|congruence]. intros v Hv. congruence.
    - intros (d' & f & l & E & Hd & Hf & Hl). injection E as <-. rewrite described2 in Hd by discriminate.
      destruct Hd as (H0 & (vf & Lf & Vf) & H2 & H3). destruct (lookup "last" d) as [vl|] eqn:Ll; [|exfalso; now apply H3].
      specialize (H2 vl eq_refl). split.
      + split; [exact H0|]. split; [exists vf; split; [auto|]; exists f; auto|]. split; [|congruence].
        intros v Hv. injection Hv as <-. exists l. split; [auto|lia].
      + rewrite Lf. apply as_int_value in Vf, H2. rewrite Vf, H2. lia.
  Qed.
  Lemma roi_accepts roi : wf (JDict roi) -> (check_roi bool_ok roi = true <-> described (roi_fields bool_ok) roi).
  Proof.
    intros Hw. pose proof (wf_dict_inv _ Hw) as [Hn _]. unfold check_roi, roi_fields. rewrite andb_true_iff.
    set (axis := fun j => match j with JDict d => validate (roi_axis_schema bool_ok) d | _ => false end).
    assert (V : validate (roi_schema bool_ok) roi = true <-> described [("row", true, fun j => axis j = true); ("col", true, fun j => axis j = true)] roi).
    { apply validate_described; [|nodup|auto]. unfold roi_schema. fields; reflexivity. }
    rewrite V, !described2 by discriminate. split.
    - intros ((H0 & (r & Lr & Vr) & H2 & H3) & Hc). destruct (lookup "col" roi) as [c|] eqn:Lc; [|exfalso; now apply H3].
      specialize (H2 c eq_refl). rewrite Lr in Hc. destruct r as [| | | | | | | |r]; try discriminate. destruct c as [| | | | | | | |c]; try discriminate.
      apply andb_true_iff in Hc. destruct Hc as [Cc Cr]. cbn in Vr, H2.
      split; [exact H0|]. split; [exists (JDict r); split; [auto|]|].
      + apply axis_coherent; [exact (proj1 (wf_dict_inv _ (wf_lookup _ _ _ Hw Lr))) | auto].
      + split; [|congruence]. intros v Hv. injection Hv as <-.
        apply axis_coherent; [exact (proj1 (wf_dict_inv _ (wf_lookup _ _ _ Hw Lc))) | auto].
    - intros (H0 & (r & Lr & Vr) & H2 & H3). destruct (lookup "col" roi) as [c|] eqn:Lc; [|exfalso; now apply H3].
      specialize (H2 c eq_refl). rewrite Lr.
      pose proof Vr as (dr & ? & ? & -> & _). pose proof H2 as (dc & ? & ? & -> & _).
      apply axis_coherent in Vr; [|exact (proj1 (wf_dict_inv _ (wf_lookup _ _ _ Hw Lr)))].
      apply axis_coherent in H2; [|exact (proj1 (wf_dict_inv _ (wf_lookup _ _ _ Hw Lc)))].
      destruct Vr as [Vr Cr], H2 as [Vc Cc]. rewrite Cr, Cc. split; [|reflexivity].
      split; [exact H0|]. split; [exists (JDict dr); auto|]. split; [|congruence]. intros v Hv. injection Hv as <-. exact Vc.
  Qed.

  (** * Result of the checks *)
  Lemma lookup_set_default k k' v cfg : lookup k (set_default k' v cfg) =
    match lookup k cfg with Some x => Some x | None => if k =? k' then Some v else None end.
  Proof.
    unfold set_default. destruct (lookup k' cfg) as [w|] eqn:E.
    - destruct (lookup k cfg) eqn:E'; [reflexivity|]. destruct (String.eqb_spec k k') as [->|]; congruence.
    - rewrite lookup_assign. destruct (String.eqb_spec k k') as [->|]; [now rewrite E|]. now destruct (lookup k cfg).
  Qed.
  Lemma set_default_id k v cfg : lookup k cfg <> None -> set_default k v cfg = cfg.
  Proof. unfold set_default. destruct (lookup k cfg); congruence. Qed.
  Lemma estimation_result cfg cfg' : estimation_check_conf bool_ok cfg = Some cfg' ->
    completed_by [("range_row", JInt 5); ("range_col", JInt 5); ("sample_factor", JInt 1)] cfg cfg' /\
    estimation_check_conf bool_ok cfg' = Some cfg'.
  Proof.
    unfold estimation_check_conf. set (c := set_default "sample_factor" _ _). destruct (validate (estimation_schema bool_ok) c) eqn:E; [|discriminate].
    intros H. injection H as <-.
    assert (L : completed_by [("range_row", JInt 5); ("range_col", JInt 5); ("sample_factor", JInt 1)] cfg c).
    { intros k. unfold c. rewrite !lookup_set_default. cbn [lookup]. destruct (lookup k cfg); [reflexivity|].
      destruct (k =? "range_col") eqn:E1; destruct (k =? "range_row") eqn:E2; destruct (k =? "sample_factor") eqn:E3; auto. }
    split; [exact L|].
    assert (D : forall k v, set_default k v c = c \/ lookup k c = None).
    { intros k v. destruct (lookup k c) eqn:Ek; [left; apply set_default_id; congruence | now right]. }
    assert (S : set_default "sample_factor" (JInt 1) (set_default "range_row" (JInt 5) (set_default "range_col" (JInt 5) c)) = c).
    { rewrite (set_default_id "range_col"), (set_default_id "range_row"), (set_default_id "sample_factor"); auto;
        rewrite L; destruct (lookup _ cfg); discriminate. }
    now rewrite S, E.
  Qed.
  Lemma assign_same k v (cfg : dict) : lookup k cfg = Some v -> assign k v cfg = cfg.
  Proof.
    induction cfg as [|[a x] r IH]; cbn; [discriminate|].
    destruct (k =? a) eqn:E; intros H; [now injection H as ->| now rewrite IH].
  Qed.
  Lemma optical_flow_result step w cfg cfg' : optical_flow_init bool_ok step w cfg = Some cfg' ->
    (forall k, lookup k cfg' = if k =? "step" then Some (step_of step) else if k =? "window_size" then Some w
                               else match lookup k cfg with Some v => Some v | None => lookup k [("iterations", JInt 4)] end) /\
    optical_flow_init bool_ok step w cfg' = Some cfg'.
  Proof.
    unfold optical_flow_init. fold (step_of step). set (c := set_default "iterations" _ _).
    destruct (validate (optical_flow_schema bool_ok) c) eqn:E; [|discriminate]. intros H. injection H as <-.
    assert (L : forall k, lookup k c = if k =? "step" then Some (step_of step) else if k =? "window_size" then Some w
                               else match lookup k cfg with Some v => Some v | None => lookup k [("iterations", JInt 4)] end).
    { intros k. unfold c. rewrite lookup_set_default, !lookup_assign. destruct (k =? "step"); [reflexivity|].
      destruct (k =? "window_size"); [reflexivity|]. destruct (lookup k cfg); reflexivity. }
    split; [exact L|].
    rewrite (assign_same "window_size" w c) by now rewrite L. rewrite (assign_same "step" (step_of step) c) by now rewrite L.
    rewrite set_default_id; [now rewrite E|]. rewrite L. cbn [String.eqb Ascii.eqb Bool.eqb]. destruct (lookup _ cfg); discriminate.
  Qed.
  Lemma interpolation_result cfg cfg' : interpolation_init cfg = Some cfg' -> cfg' = cfg.
  Proof. unfold interpolation_init. destruct (validate _ cfg); congruence. Qed.
  Lemma interpolation_accepts cfg : NoDup (keys cfg) -> (interpolation_init cfg <> None <-> described interpolation_fields cfg).
  Proof.
    intros Hn. unfold interpolation_init. transitivity (validate interpolation_schema cfg = true).
    { destruct (validate _ cfg); split; congruence. }
    apply validate_described; [|nodup|auto]. unfold interpolation_schema, interpolation_fields. fields.
  Qed.

  (** * Matching cost *)
  Section MatchingCost.
    Variable pandora_check : dict -> option (json * json * json).
    Lemma matching_cost_method_spec j :
      is_string "ssd" j || is_string "sad" j || is_string "zncc" j || is_string "mc_cnn" j = true <->
      string_among ["ssd"; "sad"; "zncc"; "mc_cnn"] j.
    Proof.
      rewrite !orb_true_iff, !is_string_spec. unfold string_among. split.
      - intros [[[H|H]|H]|H]; destruct H as (s & [<-|[]] & ->); eexists; (split; [|reflexivity]); cbn; auto 6.
      - intros (s & [H|[H|[H|[H|[]]]]] & ->); subst s; [left; left; left | left; left; right | left; right | right];
          (eexists; split; [now left | reflexivity]).
    Qed.
    Lemma matching_cost_result cfg cfg' : matching_cost_init pandora_check cfg = Some cfg' ->
      exists m a b w s o,
        lookup "matching_cost_method" cfg = Some m /\ string_among ["ssd"; "sad"; "zncc"; "mc_cnn"] m /\
        match lookup "step" cfg with Some x => x | None => JList [JInt 1; JInt 1] end = JList [a; b] /\
        number_at_least_one a /\ number_at_least_one b /\
        pandora_check (assign "step" b cfg) = Some (w, s, o) /\
        cfg' = [("matching_cost_method", m); ("step", JList [a; b]); ("window_size", w); ("subpix", s); ("spline_order", o)].
    Proof.
      unfold matching_cost_init, matching_cost_check_conf. destruct (lookup "matching_cost_method" cfg) as [m|]; [|discriminate].
      set (st := match lookup "step" cfg with Some x => x | None => _ end).
      destruct (validate matching_cost_schema [("matching_cost_method", m); ("step", st)]) eqn:E; [|discriminate].
      assert (Hd : described [("matching_cost_method", true, string_among ["ssd"; "sad"; "zncc"; "mc_cnn"]); ("step", true, pair_at_least_one)]
                     [("matching_cost_method", m); ("step", st)]).
      { revert E. apply validate_described; [|nodup|nodup]. unfold matching_cost_schema. fields; [apply matching_cost_method_spec | apply step_schema_spec]. }
      rewrite described2 in Hd by discriminate. destruct Hd as (_ & (v & Hv & Hm) & H2 & _). cbn in Hv. injection Hv as <-.
      destruct (H2 st eq_refl) as (a & b & Es & Ha & Hb). rewrite Es.
      destruct (pandora_check (assign "step" b cfg)) as [[[w s] o]|] eqn:Ep; [|discriminate]. intros H. injection H as <-.
      exists m, a, b, w, s, o. repeat split; auto.
    Qed.
    Lemma matching_cost_accepts cfg :
      matching_cost_init pandora_check cfg <> None <->
      exists m a b,
        lookup "matching_cost_method" cfg = Some m /\ string_among ["ssd"; "sad"; "zncc"; "mc_cnn"] m /\
        match lookup "step" cfg with Some x => x | None => JList [JInt 1; JInt 1] end = JList [a; b] /\
        number_at_least_one a /\ number_at_least_one b /\
        pandora_check (assign "step" b cfg) <> None.
    Proof.
      split.
      - destruct (matching_cost_init pandora_check cfg) as [cfg'|] eqn:E; [|congruence]. intros _.
        destruct (matching_cost_result _ _ E) as (m & a & b & w & s & o & H1 & H2 & H3 & H4 & H5 & H6 & _).
        exists m, a, b. repeat split; auto. congruence.
      - intros (m & a & b & H1 & H2 & H3 & H4 & H5 & H6). unfold matching_cost_init, matching_cost_check_conf. rewrite H1, H3.
        assert (V : validate matching_cost_schema [("matching_cost_method", m); ("step", JList [a; b])] = true).
        { apply (validate_described _ [("matching_cost_method", true, string_among ["ssd"; "sad"; "zncc"; "mc_cnn"]); ("step", true, pair_at_least_one)]);
            [|nodup|nodup|].
          - unfold matching_cost_schema. fields; [apply matching_cost_method_spec | apply step_schema_spec].
          - rewrite described2 by discriminate. split; [|split; [exists m; auto|split; [|discriminate]]].
            + intros k. cbn. destruct (String.eqb_spec k "matching_cost_method"); [auto|]. destruct (String.eqb_spec k "step"); [auto|congruence].
            + intros v Hv. cbn in Hv. injection Hv as <-. exists a, b. auto. }
        rewrite V. destruct (pandora_check (assign "step" b cfg)) as [[[w s] o]|]; congruence.
    Qed.
  End MatchingCost.
End Steps.
