(** Proofs about the checks of the datasets. *)
From Coq Require Import List String Bool ZArith QArith Lia.
From Verif Require Import Base.PyList Base.Arr Base.Json Model.DatasetModel Spec.DatasetSpec.
Import ListNotations.
Open Scope Z_scope.
Open Scope string_scope.
Open Scope list_scope.

Lemma nats_eqb_eq a : forall b, nats_eqb a b = true <-> a = b.
Proof.
  induction a as [|x a IH]; intros [|y b]; cbn; try (split; congruence).
  rewrite andb_true_iff, Nat.eqb_eq, IH. split; [intros [-> ->]; reflexivity | intros H; injection H; auto].
Qed.
Lemma last_two_app p a b : last_two (p ++ [a; b]) = [a; b].
Proof.
  unfold last_two, py_slice, py_index. rewrite app_length. cbn [List.length].
  replace (-2 <? 0)%Z with true by reflexivity.
  replace (Z.of_nat (List.length p + 2) <? 0)%Z with false by (symmetry; apply Z.ltb_ge; lia).
  replace (Z.to_nat (Z.max 0 (-2 + Z.of_nat (List.length p + 2)))) with (List.length p) by lia.
  replace (Z.to_nat (Z.min (Z.of_nat (List.length p + 2)) (Z.of_nat (List.length p + 2))) - List.length p)%nat with 2%nat by lia.
  rewrite skipn_app, skipn_all, Nat.sub_diag. reflexivity.
Qed.
Lemma two_last l : (2 <= List.length l)%nat -> exists p a b, l = p ++ [a; b] :> list nat.
Proof.
  intros H. destruct (exists_last (l := l)) as (q & b & ->); [intros ->; cbn in H; lia|].
  rewrite app_length in H. cbn in H. destruct (exists_last (l := q)) as (p & a & ->); [intros ->; cbn in H; lia|].
  exists p, a, b. now rewrite <- app_assoc.
Qed.
Lemma has_spec {R} (d : image_dataset R) v : has d v = true <-> has_variable d v.
Proof.
  unfold has, has_variable. destruct (lookup v (ds_shapes d)) as [s|] eqn:E.
  - split; [intros _; exists s; now apply lookup_In | reflexivity].
  - split; [discriminate|]. intros (s & H). exfalso. assert (N : lookup v (ds_shapes d) <> None); [|congruence].
    apply lookup_in. apply in_map_iff. exists (v, s). auto.
Qed.

Lemma existsb_in k l : existsb (fun k' => k =? k') l = true <-> In k l.
Proof.
  rewrite existsb_exists. split.
  - intros (x & H & E). apply String.eqb_eq in E. now subst.
  - intros H. exists k. split; [auto | apply String.eqb_refl].
Qed.
Lemma presence_spec input : check_disparity_presence input = true <-> In "col_disparity" (keys input) /\ In "row_disparity" (keys input).
Proof.
  unfold check_disparity_presence, missing. cbn [filter].
  destruct (existsb (fun k' => "col_disparity" =? k') (keys input)) eqn:E1; destruct (existsb (fun k' => "row_disparity" =? k') (keys input)) eqn:E2; cbn;
    rewrite <- !existsb_in, E1, E2; split; auto; intros; try discriminate; intuition congruence.
Qed.
Lemma is_int_spec j : is_int j = true <-> exists m, integer_like j m.
Proof.
  split.
  - destruct j; cbn; try discriminate; intros _; [destruct b; eexists; constructor | eexists; constructor].
  - intros (m & H). inversion H; reflexivity.
Qed.
Lemma types_spec j : wf j -> (check_disparity_types j = true <-> disparity_ok j).
Proof.
  intros Hw. unfold check_disparity_types, disparity_ok. split.
  - destruct j as [| | | | | | | |d]; try discriminate. apply wf_dict_inv in Hw. destruct Hw as [Hn _].
    destruct (same_keys d ["init"; "range"]) eqn:Es; [|discriminate]. cbn [negb].
    apply andb_true_iff in Es. destruct Es as [E1 E2]. rewrite forallb_forall in E1, E2.
    destruct (lookup "init" d) as [i|] eqn:Ei; [|discriminate]. destruct (lookup "range" d) as [r|] eqn:Er; [|discriminate].
    destruct (is_int i || is_str i) eqn:Hi; [|discriminate]. cbn [negb].
    destruct (negative r) as [n|] eqn:Ng; [|discriminate]. destruct n; [discriminate|]. destruct (is_int r) eqn:Ir; [|discriminate]. intros _.
    apply is_int_spec in Ir. destruct Ir as (m & Hm). exists d, i, r, m. split; [reflexivity|]. split; [|split; [|split; [exact Hm|]]].
    + intros k v. split.
      * intros Hin. assert (Hk : In k (keys d)) by (apply in_map_iff; exists (k, v); auto).
        apply E1 in Hk. apply existsb_in in Hk. apply In_lookup in Hin; [|exact Hn].
        destruct Hk as [<-|[<-|[]]]; [left | right]; congruence.
      * intros [H|H]; injection H as -> ->; now apply lookup_In.
    + apply orb_true_iff in Hi. destruct Hi as [Hi|Hi]; [left; now apply is_int_spec|]. right. destruct i; try discriminate. eauto.
    + inversion Hm; subst; cbn in Ng; try lia. injection Ng as Ng. lia.
  - intros (d & i & r & n & -> & Hd & Hi & Hr & H0). apply wf_dict_inv in Hw. destruct Hw as [Hn _].
    assert (Li : lookup "init" d = Some i) by (apply In_lookup; [auto|]; apply Hd; auto).
    assert (Lr : lookup "range" d = Some r) by (apply In_lookup; [auto|]; apply Hd; auto).
    assert (S : same_keys d ["init"; "range"] = true).
    { apply andb_true_iff. split; apply forallb_forall; intros k Hk; apply existsb_in.
      - apply in_map_iff in Hk. destruct Hk as ([k' v] & <- & Hin). apply Hd in Hin. cbn. destruct Hin as [H|H]; injection H; auto.
      - destruct Hk as [<-|[<-|[]]]; apply lookup_in; congruence. }
    rewrite S, Li, Lr. cbn [negb].
    assert (I : is_int i || is_str i = true).
    { apply orb_true_iff. destruct Hi as [Hi|(p & ->)]; [left; now apply is_int_spec | now right]. }
    rewrite I. cbn [negb].
    assert (N : negative r = Some false). { inversion Hr; subst; cbn; auto. f_equal. lia. }
    rewrite N. replace (is_int r) with true; [reflexivity|]. symmetry. apply is_int_spec. eauto.
Qed.
Lemma disparities_spec input : wf (JDict input) ->
  (check_disparities input = true <->
   exists c r, In ("col_disparity", c) input /\ In ("row_disparity", r) input /\ disparity_ok c /\ disparity_ok r).
Proof.
  intros Hw. pose proof (wf_dict_inv _ Hw) as [Hn Hv]. unfold check_disparities. rewrite andb_true_iff, presence_spec. split.
  - intros [[H1 H2] H]. destruct (lookup "col_disparity" input) as [c|] eqn:Ec; [|discriminate].
    destruct (lookup "row_disparity" input) as [r|] eqn:Er; [|discriminate]. apply lookup_In in Ec, Er.
    apply andb_true_iff in H. rewrite !types_spec in H by eauto. exists c, r. tauto.
  - intros (c & r & Hc & Hr & Oc & Or). split.
    { split; apply in_map_iff; [exists ("col_disparity", c) | exists ("row_disparity", r)]; auto. }
    rewrite (In_lookup _ _ _ Hn Hc), (In_lookup _ _ _ Hn Hr). apply andb_true_iff. rewrite !types_spec by eauto. auto.
Qed.
