(** C96: the report. *)
From Coq Require Import ZArith QArith List String Bool Permutation Sorted Lia Lqa.
From Verif Require Import Base.Json Base.Dict Model.RoiModel Model.StatisticsModel Model.InterpolationModel Model.ReportModel Spec.ReportSpec.
From Verif Require Proofs.StatisticsProofs.
Import ListNotations.
Open Scope string_scope.
Open Scope list_scope.

(** *** Sorting *)
Lemma q_insert_perm z l : Permutation (z :: l) (q_insert z l).
Proof. induction l as [|x l IH]; [reflexivity|]. cbn. destruct (Qle_bool z x); [reflexivity|]. etransitivity; [apply perm_swap|]. now constructor. Qed.
Lemma q_sort_perm l : Permutation l (q_sort l).
Proof. induction l as [|x l IH]; [reflexivity|]. cbn. etransitivity; [|apply q_insert_perm]. now constructor. Qed.
Lemma q_insert_sorted z l : Sorted Qle l -> Sorted Qle (q_insert z l).
Proof.
  induction l as [|x l IH]; intros H; [repeat constructor|]. cbn. destruct (Qle_bool z x) eqn:E.
  - apply Qle_bool_iff in E. constructor; [exact H | constructor; exact E].
  - assert (E' : (x <= z)%Q) by (apply Qlt_le_weak, Qnot_le_lt; intros X; apply Qle_bool_iff in X; congruence).
    inversion H as [|? ? H1 H2]; subst. constructor; [now apply IH|]. destruct l as [|y l]; cbn; [now constructor|]. destruct (Qle_bool z y); constructor; [exact E' | now inversion H2].
Qed.
Lemma q_sort_sorted l : Sorted Qle (q_sort l).
Proof. induction l as [|x l IH]; [constructor|]. now apply q_insert_sorted. Qed.
Lemma q_quantile_spec l p d : l <> [] -> (0 <= p < d)%Z -> exists v, q_quantile p d (q_sort l) = Some v /\ is_quantile l p d v.
Proof.
  intros Hl Hp. assert (P := q_sort_perm l). assert (So := q_sort_sorted l). assert (L := Permutation_length P). generalize dependent (q_sort l). intros s P So L.
  assert (Hs : exists x r, s = x :: r) by (destruct s as [|x r]; [destruct l; [congruence|discriminate]|eauto]). destruct Hs as (x & r & Es).
  assert (Q0 : q_quantile p d s = Some (let last_index := (Z.of_nat (List.length s) - 1)%Z in let previous := (p * last_index / d)%Z in
      lerp (nth (Z.to_nat previous) s x) (nth (Z.to_nat (Z.min (previous + 1) last_index)) s x) (inject_Z (p * last_index mod d) / inject_Z d)%Q)) by (rewrite Es; reflexivity).
  eexists. split; [exact Q0|]. cbv zeta. clear Q0. exists s. split; [exact P|]. split; [exact So|]. rewrite L in *. assert (Hn0 : (1 <= List.length s)%nat) by (rewrite Es; cbn; lia). clear Es r.
  set (n := List.length s) in *. set (h := (p * (Z.of_nat n - 1))%Z). assert (Hd : (0 < d)%Z) by lia. assert (Hh := Z.div_mod h d ltac:(lia)). assert (Hm := Z.mod_pos_bound h d Hd). set (k := (h / d)%Z) in *.
  assert (Hk0 : (0 <= k)%Z) by (apply Z.div_pos; unfold h; nia). assert (Hk1 : (k <= Z.of_nat n - 1)%Z). { assert (h <= d * (Z.of_nat n - 1))%Z by (unfold h; nia). nia. }
  assert (N : forall i, (i < n)%nat -> nth_error s i = Some (nth i s x)) by (intros i Hi; apply nth_error_nth'; exact Hi).
  exists (Z.to_nat k), (nth (Z.to_nat k) s x), (nth (Z.to_nat (Z.min (k + 1) (Z.of_nat n - 1))) s x).
  split; [apply N; lia|]. split.
  - destruct (Z_le_gt_dec (k + 1) (Z.of_nat n - 1)) as [H|H].
    + left. rewrite Z.min_l by lia. replace (Z.to_nat (k + 1)) with (S (Z.to_nat k)) by lia. apply N. lia.
    + right. rewrite Z.min_r by lia. replace (Z.of_nat n - 1)%Z with k by lia. split; [lia | reflexivity].
  - rewrite Z2Nat.id by lia. split; [nia|]. rewrite StatisticsProofs.lerp_eq.
    assert (X : (inject_Z h / inject_Z d - inject_Z k == inject_Z (h mod d) / inject_Z d)%Q).
    { assert (D0 : ~ (inject_Z d == 0)%Q) by (unfold Qeq; cbn; lia). rewrite Hh at 1. rewrite inject_Z_plus, inject_Z_mult. field. exact D0. }
    rewrite X. reflexivity.
Qed.
Lemma q_over x n : (0 < n)%nat -> exists r, over x n = Some r /\ (r * inject_Z (Z.of_nat n) == x)%Q.
Proof. intros H. destruct n as [|n]; [lia|]. eexists. split; [reflexivity|]. assert (P : ~ (inject_Z (Z.of_nat (S n)) == 0)%Q) by (unfold Qeq; cbn; lia). field. exact P. Qed.

(** *** Valid pixels *)
Lemma bool_back b x : exactly (JInt (Z.b2z b)) x -> exactly (JBool b) x.
Proof. intros H. inversion H; subst. now constructor. Qed.
Fixpoint element_back inv x {struct inv} : exactly (element inv) x -> exactly inv x :=
  match inv with JList [j] => fun H => ex_list j x (element_back j x H) | JBool b => fun H => bool_back b x H | _ => fun H => H end.
Lemma element_exactly inv x : exactly inv x <-> exactly (element inv) x.
Proof. split; [induction 1; cbn; try (constructor; assumption); exact IHexactly | apply element_back]. Qed.
Fixpoint flat (inv : json) : match element inv with JBool _ | JList [_] => False | _ => True end :=
  match inv with JList [j] => flat j | _ => I end.
Lemma same_exactly inv x : inv <> JNan -> match inv with JBool _ | JList [_] => False | _ => True end -> (same_invalid inv x = true <-> exactly inv x).
Proof.
  intros N U. split.
  - destruct inv; try discriminate; destruct x; try discriminate; cbn; intros H.
    + constructor. now apply Qeq_bool_iff.
    + constructor. now apply Qeq_bool_iff.
    + apply Bool.eqb_prop in H as ->. constructor.
  - destruct 1; cbn; try (now apply Qeq_bool_iff); try contradiction; try congruence. apply Bool.eqb_reflx.
Qed.
(** What map_statistics keeps. *)
Definition kept_of (inv : json) (data : list cost) : list cost := match element inv with JNan | JNull => data | _ => List.filter (fun x => negb (same_invalid (element inv) x)) data end.
Definition valid_pixel (inv : json) (x : cost) : bool := match element inv with JNan | JNull => negb (c_isnan x) | _ => negb (same_invalid (element inv) x) end.
Lemma statistics_of root data inv : map_statistics root data inv =
  match finite (kept_of inv data) with
  | None => JNull
  | Some l => to_dict (q_mean l) (option_map root (q_variance l))
        (if (List.length (kept_of inv data) =? 0)%nat then [None; None; None; None; None] else map (fun p => q_quantile (fst p) (snd p) (q_sort l)) levels)
        (over (inject_Z (Z.of_nat (List.length (List.filter (valid_pixel inv) data)))) (List.length data))
  end.
Proof. unfold map_statistics, kept_of, valid_pixel. destruct (element inv); reflexivity. Qed.
Lemma exactly_null x : ~ exactly JNull x.
Proof. intros H. inversion H. Qed.
Lemma exactly_nan x : exactly JNan x <-> x = CNan.
Proof. split; [intros H; now inversion H | intros ->; constructor]. Qed.
Lemma kept_valid inv data l : valid_numbers inv data l -> finite (kept_of inv data) = Some l.
Proof.
  unfold kept_of. assert (X := fun x => element_exactly inv x). assert (F := flat inv). intros V.
  assert (Nan : element inv = JNan \/ element inv = JNull -> finite data = Some l).
  { intros N. induction V as [|x d l' H V IH|q d l' H V IH]; [reflexivity | |].
    - assert (x = CNan) as ->; [|exact IH]. destruct H as [H|H]; [exact H|]. apply X in H. destruct N as [N|N]; rewrite N in H; [now apply exactly_nan in H | now apply exactly_null in H].
    - cbn. now rewrite IH. }
  assert (Other : element inv <> JNan -> finite (List.filter (fun x => negb (same_invalid (element inv) x)) data) = Some l).
  { intros N. clear Nan. induction V as [|x d l' H V IH|q d l' H V IH]; cbn [List.filter]; [reflexivity | |].
    - destruct (same_invalid (element inv) x) eqn:E; cbn; [exact IH|]. destruct H as [->|H]; [exact IH|]. apply X, (same_exactly _ _ N F) in H. congruence.
    - destruct (same_invalid (element inv) (CFin q)) eqn:E; [elim H; apply X; now apply (same_exactly _ _ N F)|]. cbn. now rewrite IH. }
  destruct (element inv); try (apply Nan; auto; fail); apply Other; discriminate.
Qed.
Lemma count_valid inv data k : (exists c, exactly inv c) -> different inv data k -> List.length (List.filter (valid_pixel inv) data) = k.
Proof.
  assert (X := fun x => element_exactly inv x). assert (F := flat inv). intros (c0 & C) D.
  assert (V : forall x, valid_pixel inv x = false <-> exactly inv x).
  { intros x. rewrite X. unfold valid_pixel.
    assert (S : element inv <> JNan -> negb (same_invalid (element inv) x) = false <-> exactly (element inv) x) by (intros N; rewrite Bool.negb_false_iff; now apply same_exactly).
    destruct (element inv) eqn:E; try (apply S; discriminate).
    - apply X, exactly_null in C. destruct C.
    - rewrite exactly_nan. destruct x; cbn; split; congruence. }
  induction D as [|x d k H D IH|x d k H D IH]; cbn [List.filter]; [reflexivity | |].
  - apply V in H as ->. exact IH.
  - destruct (valid_pixel inv x) eqn:E; [cbn; now rewrite IH|]. elim H. now apply V.
Qed.
Lemma squares_map mu l : q_sum (map (fun z => (z - mu) * (z - mu))%Q l) = squares mu l.
Proof. induction l as [|x l IH]; cbn; [reflexivity|]. now f_equal. Qed.

Section Report.
  Variable root : Q -> Q.
  Notation report_of := (report_of root).
  Notation map_statistics := (map_statistics root).
  (** The statistics of one map. *)
  Lemma statistics_right inv data l : valid_numbers inv data l -> (l = [] -> says_nothing (map_statistics data inv)) /\ (l <> [] -> says root l (map_statistics data inv)).
  Proof.
    intros V. rewrite statistics_of, (kept_valid _ _ _ V). split.
    - intros ->. cbn [q_mean q_variance List.length over option_map]. destruct (_ =? 0)%nat; (split; [reflexivity|]; split; [reflexivity|]; intros key Hk; cbn in Hk; destruct Hk as [<-|[<-|[<-|[<-|[<-|[]]]]]]; reflexivity).
    - intros Hl. assert (Hn : (0 < List.length l)%nat) by (destruct l; [congruence | cbn; lia]).
      assert (K : (List.length (kept_of inv data) =? 0)%nat = false).
      { apply Nat.eqb_neq. pose proof (kept_valid _ _ _ V) as E. destruct (kept_of inv data); [cbn in E; injection E as <-; now elim Hl | discriminate]. }
      rewrite K. unfold says. split.
      + unfold q_variance, q_mean. destruct (q_over (q_sum l) _ Hn) as (mu & -> & Hmu). destruct (q_over (q_sum (map (fun z => (z - mu) * (z - mu))%Q l)) _ Hn) as (var & -> & Hv).
        exists mu, var. split; [reflexivity|]. split; [exact Hmu|]. split; [rewrite squares_map in Hv; exact Hv | reflexivity].
      + intros key p d Hk. assert (B : (0 <= p < d)%Z /\ forall v, q_quantile p d (q_sort l) = Some v -> number_at ["quantiles"; key] (to_dict (q_mean l) (option_map root (q_variance l)) (map (fun p => q_quantile (fst p) (snd p) (q_sort l)) levels)
          (over (inject_Z (Z.of_nat (List.length (List.filter (valid_pixel inv) data)))) (List.length data))) v).
        { unfold levels. cbn [map fst snd]. cbn [In] in Hk. destruct Hk as [E|[E|[E|[E|[E|[]]]]]]; injection E as <- <- <-; (split; [lia|]); intros v Hv; unfold number_at, to_dict, dumped; cbn [map combine get_path lookup String.eqb Ascii.eqb Bool.eqb]; rewrite Hv; reflexivity. }
        destruct B as (Hp & B). destruct (q_quantile_spec l p d Hl Hp) as (v & Ev & Hv). exists v. auto.
  Qed.
  (** The ratio of the pixels that do not have the invalid value. *)
  Lemma ratio_right inv data l k : valid_numbers inv data l -> (exists c, exactly inv c) -> different inv data k -> data <> [] ->
    exists r, number_at ["minimal_valid_pixel_ratio"] (map_statistics data inv) r /\ (r * inject_Z (Z.of_nat (List.length data)) == inject_Z (Z.of_nat k))%Q.
  Proof.
    intros V C D N. rewrite statistics_of, (kept_valid _ _ _ V), (count_valid _ _ _ C D). assert (Hn : (0 < List.length data)%nat) by (destruct data; [congruence | cbn; lia]).
    destruct (q_over (inject_Z (Z.of_nat k)) _ Hn) as (r & Er & Hr). exists r. split; [|exact Hr]. unfold number_at, to_dict. rewrite Er. reflexivity.
  Qed.

  (** The report says, for both maps, the statistics of the valid pixels. *)
  Theorem C96_report inv maps rows cols : valid_numbers inv (List.concat (dm_row_map maps)) rows -> valid_numbers inv (List.concat (dm_col_map maps)) cols ->
    exists r c, get_path ["statistics"; "disparity"; "row"] (report_of inv maps) = Some r /\ get_path ["statistics"; "disparity"; "col"] (report_of inv maps) = Some c /\
      (rows = [] -> says_nothing r) /\ (rows <> [] -> says root rows r) /\ (cols = [] -> says_nothing c) /\ (cols <> [] -> says root cols c) /\
      (forall k k', (exists v, exactly inv v) -> different inv (List.concat (dm_row_map maps)) k -> different inv (List.concat (dm_col_map maps)) k' -> List.concat (dm_row_map maps) <> [] -> List.concat (dm_col_map maps) <> [] ->
        exists x y, number_at ["minimal_valid_pixel_ratio"] r x /\ (x * inject_Z (Z.of_nat (List.length (List.concat (dm_row_map maps)))) == inject_Z (Z.of_nat k))%Q /\
          number_at ["minimal_valid_pixel_ratio"] c y /\ (y * inject_Z (Z.of_nat (List.length (List.concat (dm_col_map maps)))) == inject_Z (Z.of_nat k'))%Q).
  Proof.
    intros Vr Vc. do 2 eexists. split; [reflexivity|]. split; [reflexivity|]. destruct (statistics_right _ _ _ Vr) as (R1 & R2). destruct (statistics_right _ _ _ Vc) as (C1 & C2).
    do 4 (split; [assumption|]). intros k k' C Dk Dk' N N'. destruct (ratio_right _ _ _ _ Vr C Dk N) as (x & X1 & X2). destruct (ratio_right _ _ _ _ Vc C Dk' N') as (y & Y1 & Y2). exists x, y. auto.
  Qed.

  (** The file is standard JSON exactly when both maps have a valid pixel; otherwise it has NaN, which is not in the grammar of JSON. *)
  Lemma dumped_standard x : standard (dumped x) <-> x <> None.
  Proof. destruct x; cbn; split; try congruence; intros H; [constructor | inversion H]. Qed.
  Lemma dict_standard (d : dict) : standard (JDict d) <-> Forall (fun e => standard (snd e)) d.
  Proof.
    split.
    - intros H. inversion H as [| | | | | |? H']; subst. apply Forall_forall. intros [k v] Hk. now apply (H' k).
    - intros H. constructor. intros k v Hk. exact (proj1 (Forall_forall _ _) H _ Hk).
  Qed.
  Lemma map_standard inv data l : valid_numbers inv data l -> standard (map_statistics data inv) <-> l <> [].
  Proof.
    intros V. destruct (statistics_right _ _ _ V) as (S1 & S2). split.
    - intros H ->. destruct (S1 eq_refl) as (M & _). rewrite statistics_of, (kept_valid _ _ _ V) in H, M. apply dict_standard in H. inversion H as [|? ? H' _]; subst. cbn in H'. inversion H'.
    - intros Hl. assert (Hd : data <> []) by (intros ->; inversion V; congruence). specialize (S2 Hl). revert S2. rewrite statistics_of, (kept_valid _ _ _ V). intros ((mu & var & M1 & _ & _ & M2) & Qs).
      assert (Hn : (0 < List.length data)%nat) by (destruct data; [congruence | cbn; lia]). destruct (q_over (inject_Z (Z.of_nat (List.length (List.filter (valid_pixel inv) data)))) _ Hn) as (r & Er & _).
      assert (Hl' : (0 < List.length l)%nat) by (destruct l; [congruence | cbn; lia]).
      assert (K : (List.length (kept_of inv data) =? 0)%nat = false).
      { apply Nat.eqb_neq. pose proof (kept_valid _ _ _ V) as E. destruct (kept_of inv data); [cbn in E; injection E as <-; now elim Hl | discriminate]. }
      apply dict_standard. rewrite K. repeat constructor; cbn [snd].
      + apply dumped_standard. unfold q_mean. destruct (q_over (q_sum l) _ Hl') as (? & -> & _). discriminate.
      + apply dumped_standard. unfold q_variance, q_mean. destruct (q_over (q_sum l) _ Hl') as (? & -> & _). destruct (q_over (q_sum (map (fun z => (z - x) * (z - x))%Q l)) _ Hl') as (? & -> & _). discriminate.
      + intros k v Hk. apply in_combine_r in Hk. apply in_map_iff in Hk as (x & <- & Hx). apply dumped_standard. apply in_map_iff in Hx as ((p & d) & <- & Hp). cbn [fst snd].
        assert (B : (0 <= p < d)%Z) by (cbn in Hp; destruct Hp as [E|[E|[E|[E|[E|[]]]]]]; injection E as <- <-; lia). destruct (q_quantile_spec l p d Hl B) as (? & -> & _). discriminate.
      + apply dumped_standard. rewrite Er. discriminate.
  Qed.
  Theorem C96_standard inv maps rows cols : valid_numbers inv (List.concat (dm_row_map maps)) rows -> valid_numbers inv (List.concat (dm_col_map maps)) cols ->
    standard (report_of inv maps) <-> rows <> [] /\ cols <> [].
  Proof.
    intros Vr Vc. rewrite <- (map_standard _ _ _ Vr), <- (map_standard _ _ _ Vc). unfold ReportModel.report_of. split.
    - intros H. do 2 (apply dict_standard in H; inversion H as [|? ? H' _]; subst; clear H; rename H' into H; cbn [snd] in H). apply dict_standard in H.
      inversion H as [|? ? H1 H2]; subst. inversion H2 as [|? ? H3 _]; subst. auto.
    - intros (R & C). apply dict_standard. constructor; [|constructor]. cbn [snd]. apply dict_standard. constructor; [|constructor]. cbn [snd]. apply dict_standard. repeat constructor; assumption.
  Qed.
End Report.

(** * Examples *)
(** Four pixels, of which one has the invalid value and one is NaN: the valid disparities are 1 and 4. *)
Example C96_report_example : let row := [CFin 1; CFin (-9999); CNan; CFin 4] in
  valid_numbers (JInt (-9999)) row [1%Q; 4%Q] /\ different (JInt (-9999)) row 3 /\ exactly (JInt (-9999)) (CFin (-9999)) /\
  let j := map_statistics (fun x => x) row (JInt (-9999)) in
  (exists mu, number_at ["mean"] j mu /\ mu == 5 # 2)%Q /\ (exists v, number_at ["quantiles"; "p90"] j v /\ v == 37 # 10)%Q /\ (exists r, number_at ["minimal_valid_pixel_ratio"] j r /\ r == 3 # 4)%Q.
Proof.
  assert (A : ~ exactly (JInt (-9999)) (CFin 1)) by (intros H; inversion H as [? ? E| | | | |]; discriminate E).
  assert (B : ~ exactly (JInt (-9999)) (CFin 4)) by (intros H; inversion H as [? ? E| | | | |]; discriminate E).
  assert (C : exactly (JInt (-9999)) (CFin (-9999))) by (constructor; reflexivity).
  assert (D : ~ exactly (JInt (-9999)) CNan) by (intros H; inversion H).
  cbv zeta. split; [apply vn_keep; [exact A|]; apply vn_skip; [auto|]; apply vn_skip; [auto|]; apply vn_keep; [exact B | constructor]|].
  split; [apply df_other; [exact A|]; apply df_same; [exact C|]; apply df_other; [exact D|]; apply df_other; [exact B | constructor]|]. split; [exact C|].
  split; [eexists; split; [reflexivity | reflexivity]|]. split; eexists; split; reflexivity.
Qed.
