(** C36: datasets and disparities that are refused before any processing. *)
From Coq Require Import List String Bool ZArith QArith Lia.
From Verif Require Import Base.PyList Base.Arr Base.Json Model.DatasetModel Spec.DatasetSpec Proofs.DatasetProofs.
Import ListNotations.
Open Scope Z_scope.
Open Scope string_scope.
Open Scope list_scope.

(** The datasets are accepted exactly when Pandora accepts both, the left one has the two disparities, and the sizes are the same.
    Images have at least two dimensions. *)
Theorem C36_datasets {R} (pandora : image_dataset R -> bool) left right :
  NoDup (keys (ds_shapes left)) -> NoDup (keys (ds_shapes right)) ->
  (forall d shape, pandora d = true -> In ("im", shape) (ds_shapes d) -> (2 <= List.length shape)%nat) ->
  (check_datasets pandora left right = true <->
   pandora left = true /\ pandora right = true /\ has_variable left "col_disparity" /\ has_variable left "row_disparity" /\
   exists rows cols, image_size left rows cols /\ image_size right rows cols).
Proof.
  intros Nl Nr Hp. unfold check_datasets. rewrite !andb_true_iff, negb_orb, !negb_involutive, andb_true_iff, !has_spec.
  unfold image_size. split.
  - intros (((Hl & Hr) & Hc & Hw) & H). do 4 (split; [assumption|]).
    destruct (lookup "im" (ds_shapes left)) as [a|] eqn:El; [|discriminate].
    destruct (lookup "im" (ds_shapes right)) as [b|] eqn:Er; [|discriminate]. apply lookup_In in El, Er.
    destruct (two_last a (Hp _ _ Hl El)) as (p & x & y & ->). destruct (two_last b (Hp _ _ Hr Er)) as (q & x' & y' & ->).
    rewrite !last_two_app in H. apply nats_eqb_eq in H. injection H as <- <-. exists x, y. eauto.
  - intros (Hl & Hr & Hc & Hw & rows & cols & (p & Ip) & (q & Iq)). split; [tauto|].
    rewrite (In_lookup _ _ _ Nl Ip), (In_lookup _ _ _ Nr Iq), !last_two_app. now apply nats_eqb_eq.
Qed.
Example C36_datasets_example :
  let left := mkDataset [("im", [3; 10; 12]%nat); ("col_disparity", [2; 10; 12]%nat); ("row_disparity", [2; 10; 12]%nat)] tt in
  let ok d := match lookup "im" (ds_shapes d) with Some [_; _; _] | Some [_; _] => true | _ => false end in
  check_datasets ok left (mkDataset [("im", [10; 12]%nat)] tt) = true /\
  check_datasets ok left (mkDataset [("im", [12; 10]%nat)] tt) = false /\
  check_datasets ok (mkDataset [("im", [10; 12]%nat)] tt) left = false /\ NoDup (keys (ds_shapes left)).
Proof. cbn. repeat split; try reflexivity. repeat constructor; cbn; intuition discriminate. Qed.

(** The disparities of the configuration. *)
Theorem C36_disparities input : wf (JDict input) ->
  (check_disparities input = true <->
   exists c r, In ("col_disparity", c) input /\ In ("row_disparity", r) input /\ disparity_ok c /\ disparity_ok r).
Proof. apply disparities_spec. Qed.
Example C36_disparities_example :
  let d i r := JDict [("init", i); ("range", r)] in
  check_disparities [("col_disparity", d (JInt 3) (JInt 2)); ("row_disparity", d (JStr "grid.tif") (JInt 0))] = true /\
  check_disparities [("col_disparity", d (JInt 3) (JInt (-1))); ("row_disparity", d (JInt 1) (JInt 0))] = false /\
  check_disparities [("row_disparity", d (JInt 1) (JInt 0))] = false /\
  check_disparities [("col_disparity", d (JFloat 3) (JInt 1)); ("row_disparity", d (JInt 1) (JInt 0))] = false.
Proof. repeat split. Qed.

(** The dataset of the maps is created exactly when the coordinates exist and have the sizes of the three maps; it then has the given maps,
    not exchanged, the coordinates and the attributes. *)
Theorem C36_maps {A V} (no_attrs : V) (delta_row delta_col score : arr2 A) coords attrs : NoDup (keys coords) -> forall d,
  dataset_disp_maps no_attrs delta_row delta_col coords score attrs = Some d <->
  exists row col, In ("row", row) coords /\ In ("col", col) coords /\
    (forall m, In m [delta_row; delta_col; score] -> a2_n0 m = List.length row /\ a2_n1 m = List.length col) /\
    md_row d = row /\ md_col d = col /\ md_row_map d = delta_row /\ md_col_map d = delta_col /\ md_score d = score /\
    md_attrs d = match attrs with Some a => a | None => no_attrs end.
Proof.
  intros Hn d. unfold dataset_disp_maps, data_array. split.
  - destruct (lookup "col" coords) as [col|] eqn:Ec; [|discriminate]. destruct (lookup "row" coords) as [row|] eqn:Er; [|discriminate].
    destruct (Nat.eqb_spec (a2_n0 delta_row) (List.length row)) as [S1|]; [|discriminate].
    destruct (Nat.eqb_spec (a2_n1 delta_row) (List.length col)) as [S2|]; [|discriminate].
    destruct (Nat.eqb_spec (a2_n0 delta_col) (List.length row)) as [S3|]; [|discriminate].
    destruct (Nat.eqb_spec (a2_n1 delta_col) (List.length col)) as [S4|]; [|discriminate].
    destruct (Nat.eqb_spec (a2_n0 score) (List.length row)) as [S5|]; [|discriminate].
    destruct (Nat.eqb_spec (a2_n1 score) (List.length col)) as [S6|]; [|discriminate].
    cbn [andb]. intros H. injection H as <-. exists row, col. apply lookup_In in Ec, Er. do 2 (split; [assumption|]).
    split; [|repeat split]. intros m [<-|[<-|[<-|[]]]]; auto.
  - intros (row & col & Hr & Hc & Hs & H1 & H2 & H3 & H4 & H5 & H6).
    rewrite (In_lookup _ _ _ Hn Hc), (In_lookup _ _ _ Hn Hr).
    destruct (Hs delta_row ltac:(cbn; auto)) as [-> ->]. destruct (Hs delta_col ltac:(cbn; auto)) as [-> ->].
    destruct (Hs score ltac:(cbn; auto)) as [-> ->]. rewrite !Nat.eqb_refl. cbn [andb]. destruct d. cbn in *. now subst.
Qed.
Example C36_maps_example :
  let m v := mkArr2 2 1 (fun _ _ => v) in
  dataset_disp_maps tt (m 1) (m 2) [("row", [4; 5]); ("col", [7]); ("disp_row", [0])] (m 3) None =
    Some (mkMaps [4; 5] [7] (m 1) (m 2) (m 3) tt) /\
  dataset_disp_maps tt (m 1) (m 2) [("row", [4; 5])] (m 3) None = None /\
  dataset_disp_maps tt (m 1) (m 2) [("row", [4]); ("col", [7])] (m 3) None = None /\
  NoDup (keys [("row", [4; 5]); ("col", [7]); ("disp_row", [0])]).
Proof. cbn. repeat split; try reflexivity. repeat constructor; cbn; intuition discriminate. Qed.

Print Assumptions C36_datasets.
Print Assumptions C36_disparities.
Print Assumptions C36_maps.
